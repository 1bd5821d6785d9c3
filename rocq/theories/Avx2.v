(** Model of src/convert_image/avx2.rs; conventions as in [Sse2].  An instruction that
    works inside of each 128-bit half is written [halves1 f] or [halves2 f], where [f]
    is the 128-bit instruction. *)
From Coq Require Import ZArith List Bool.
Import ListNotations.
From Verif Require Import Base Common Scalar Wrappers Simd Vector.
Open Scope Z_scope.

(** avx2.rs:52 *)
Definition LANE_COUNT : Z := 32.
(** avx2.rs:53, 55: [LANE_COUNT / RGB_TO_YUV_WG_SIZE] *)
Definition RGB_TO_YUV_WAVES : Z := LANE_COUNT / 4.
(** avx2.rs:54, 56: [LANE_COUNT / YUV_TO_RGB_WG_SIZE] *)
Definition YUV_TO_RGB_WAVES : Z := LANE_COUNT / 1.

(** avx2.rs:61-65 *)
Definition zero : reg := setzero 32.
(** avx2.rs:67-71 *)
Definition pack_lo_dword_2x128 : reg := set_epi32 [0; 0; 0; 0; 0; 0; 4; 0].
(** avx2.rs:73-77 *)
Definition xcgh_odd_even_words : reg := set_epi32 [6; 7; 4; 5; 2; 3; 0; 1].
(** avx2.rs:79-83 *)
Definition align_dqword_2x96 : reg := set_epi32 [7; 5; 4; 3; 7; 2; 1; 0].

(** avx2.rs:168-172 *)
Definition fix_to_i32_8x (fix_ : reg) (frac_bits : Z) : reg := srai_epi32 fix_ frac_bits.
(** avx2.rs:175-179 *)
Definition fix_to_i16_16x (fix_ : reg) (frac_bits : Z) : reg := srai_epi16 fix_ frac_bits.

(** avx2.rs:190-197 *)
Definition i16_to_i16x2_16x (x : reg) : reg * reg :=
  let y := halves2 (unpacklo 2) x x in
  let z := halves2 (unpackhi 2) x x in
  (pack_lo_dqword y z, pack_hi_dqword y z).

(** avx2.rs:202-210; [_mm256_set_m128i(x, x)] repeats its 16 bytes *)
Definition unpack_ui8_i16be_16x (s : slice) (image : Z) : M reg :=
  x <- ldn s image 16 ;;
  let xx := x ++ x in
  let hi_ := halves2 (unpackhi 1) zero xx in
  let lo_ := halves2 (unpacklo 1) zero xx in
  ret (pack_lo_dqword lo_ hi_).

(** avx2.rs:215-221 *)
Definition unpack_ui8x2_i16be_16x (s : slice) (image : Z) : M (reg * reg) :=
  x <- ldn s image 32 ;;
  ret (slli_epi16 x 8, slli_epi16 (srli_epi16 x 8) 8).

(** avx2.rs:226-259: the 32 bytes stored at [image] and the 32 bytes after them *)
Definition pack_i16x3_16x (reversed : bool) (red green blue : reg) : reg * reg :=
  let blue_red := if reversed then halves2 packus_epi16 red blue
                  else halves2 packus_epi16 blue red in
  let green_white := halves2 packus_epi16 green (srli_epi16 (cmpeq_epi32 zero zero) 8) in
  let rgbw_lo := halves2 (unpacklo 1) blue_red green_white in
  let rgbw_hi := halves2 (unpackhi 1) blue_red green_white in
  let rgbw_lo' := halves2 (unpacklo 2) rgbw_lo rgbw_hi in
  let rgbw_hi' := halves2 (unpackhi 2) rgbw_lo rgbw_hi in
  (pack_lo_dqword rgbw_lo' rgbw_hi', pack_hi_dqword rgbw_lo' rgbw_hi').

(** The two stores of [pack_i16x3_16x]: avx2.rs:249-258 *)
Definition store_i16x3_16x (reversed : bool) (dst : slice) (image : Z) (red green blue : reg)
  : M unit :=
  let '(a, b) := pack_i16x3_16x reversed red green blue in
  stn dst image a ;; stn dst (image + 32) b.

(** avx2.rs:497-500 *)
Definition shuffle (z y x w : Z) : Z :=
  Z.lor (Z.lor (Z.lor (Z.shiftl z 6) (Z.shiftl y 4)) (Z.shiftl x 2)) w.

(** avx2.rs:263-320: the register [a0] stored at [image + 16], and [a1] stored at [image] *)
Definition pack_rgb_16x (red green blue : reg) : reg * reg :=
  let compress_mask := setr_epi8
    [ 0; 1; 2; 4; 5; 6; 8; 9; 10; 12; 13; 14; -128; -128; -128; -128;
      0; 1; 2; 4; 5; 6; 8; 9; 10; 12; 13; 14; -128; -128; -128; -128 ] in
  let a2 := halves2 packus_epi16 red blue in
  let a0 := halves2 packus_epi16 green green in
  let a1 := halves2 (unpacklo 1) a2 a0 in
  let a0 := halves2 (unpackhi 1) a2 a0 in
  let a2 := halves2 (unpacklo 2) a1 a0 in
  let a0 := halves2 (unpackhi 2) a1 a0 in
  let a2 := halves2 shuffle_epi8 a2 compress_mask in
  let a1 := halves2 shuffle_epi8 a0 compress_mask in
  let a0 := halves1 (fun x => slli_si128 x 12) a1 in
  let a1 := halves1 (fun x => srli_si128 x 4) a1 in
  let a2 := or_si a0 a2 in
  let a0 := permute4x64 a1 (shuffle 2 3 1 0) in
  let a1 := permute4x64 a2 (shuffle 3 3 2 2) in
  let a0 := blend_epi32 a0 a1 0x3C in
  let a1 := pack_lo_dqword a2 a0 in
  (a0, a1).

(** The two stores of [pack_rgb_16x]: avx2.rs:318-319 *)
Definition store_rgb_16x (dst : slice) (image : Z) (red green blue : reg) : M unit :=
  let '(a0, a1) := pack_rgb_16x red green blue in
  stn dst (image + 16) a0 ;; stn dst image a1.

(** avx2.rs:325-357: the register holds the bytes at [image] *)
Definition unpack_ui8x3_i16x2_8x (smp : sampler) (line : reg) : reg * reg :=
  match smp with
  | S_Bgr =>
      let line := permutevar8x32 line align_dqword_2x96 in
      let srl n := halves1 (fun x => srli_si128 x n) line in
      let line := halves2 (unpacklo 8) (halves2 (unpacklo 4) line (srl 3%nat))
                                       (halves2 (unpacklo 4) (srl 6%nat) (srl 9%nat)) in
      let red := srli_epi32 (slli_epi32 line 8) 24 in
      let blue := srli_epi32 (slli_epi32 line 24) 24 in
      let green := srli_epi32 (slli_epi32 (srli_epi32 line 8) 24) 8 in
      (or_si red green, or_si blue green)
  | S_Argb =>
      let red := srli_epi32 (slli_epi32 line 16) 24 in
      let blue := srli_epi32 line 24 in
      let green := srli_epi32 (slli_epi32 (srli_epi32 line 16) 24) 8 in
      (or_si red green, or_si blue green)
  | S_Bgra =>
      let red := srli_epi32 (slli_epi32 line 8) 24 in
      let blue := srli_epi32 (slli_epi32 line 24) 24 in
      let green := srli_epi32 (slli_epi32 (srli_epi32 line 8) 24) 8 in
      (or_si red green, or_si blue green)
  end.

(** avx2.rs:361-366: the 8 bytes stored at [image] ([_mm256_extract_epi64(z, 0)] takes
    the lowest 64 bits) *)
Definition pack_i32_8x (red : reg) : list Z :=
  let x := halves2 packs_epi32 red red in
  let y := halves2 packus_epi16 x x in
  let z := permutevar8x32 y pack_lo_dword_2x128 in
  firstn 8 z.

(** avx2.rs:369-377 *)
Definition affine_transform_8x (xy zy : reg) (weights : reg * reg * reg) : reg :=
  let '(w0, w1, w2) := weights in
  add_epi32 (add_epi32 (madd_epi16 xy w0) (madd_epi16 zy w1)) w2.

(** avx2.rs:381-392 *)
Definition sum_i16x2_neighborhood_4x (xy0 xy1 : reg) : reg :=
  add_epi16 (add_epi16 xy0 (permutevar8x32 xy0 xcgh_odd_even_words))
            (add_epi16 xy1 (permutevar8x32 xy1 xcgh_odd_even_words)).

(** avx2.rs:396-422 *)
Definition rgb_to_yuv_8x (smp : sampler) (src : slice) (rgb0 rgb1 : Z)
           (ybuf : slice) (y0 y1 : Z) (uvbuf : slice) (uv : Z)
           (y_weights uv_weights : reg * reg * reg) : M unit :=
  l0 <- ldn src rgb0 32 ;;
  let '(rg0, bg0) := unpack_ui8x3_i16x2_8x smp l0 in
  stn ybuf y0 (pack_i32_8x (fix_to_i32_8x (affine_transform_8x rg0 bg0 y_weights) FIX16)) ;;
  l1 <- ldn src rgb1 32 ;;
  let '(rg1, bg1) := unpack_ui8x3_i16x2_8x smp l1 in
  stn ybuf y1 (pack_i32_8x (fix_to_i32_8x (affine_transform_8x rg1 bg1 y_weights) FIX16)) ;;
  let srg := sum_i16x2_neighborhood_4x rg0 rg1 in
  let sbg := sum_i16x2_neighborhood_4x bg0 bg1 in
  let t := affine_transform_8x srg sbg uv_weights in
  stn uvbuf uv (pack_i32_8x (fix_to_i32_8x t FIX18)).

(** avx2.rs:425-470 *)
Definition rgb_to_i420_8x (smp : sampler) (src : slice) (rgb0 rgb1 : Z)
           (ybuf : slice) (y0 y1 : Z) (ubuf : slice) (u : Z) (vbuf : slice) (v : Z)
           (y_weights uv_weights : reg * reg * reg) : M unit :=
  l0 <- ldn src rgb0 32 ;;
  let '(rg0, bg0) := unpack_ui8x3_i16x2_8x smp l0 in
  stn ybuf y0 (pack_i32_8x (fix_to_i32_8x (affine_transform_8x rg0 bg0 y_weights) FIX16)) ;;
  l1 <- ldn src rgb1 32 ;;
  let '(rg1, bg1) := unpack_ui8x3_i16x2_8x smp l1 in
  stn ybuf y1 (pack_i32_8x (fix_to_i32_8x (affine_transform_8x rg1 bg1 y_weights) FIX16)) ;;
  let srg := sum_i16x2_neighborhood_4x rg0 rg1 in
  let sbg := sum_i16x2_neighborhood_4x bg0 bg1 in
  let t := affine_transform_8x srg sbg uv_weights in
  let shuff := permutevar8x32 (fix_to_i32_8x t FIX18) (set_epi32 [7; 5; 3; 1; 6; 4; 2; 0]) in
  let packed_to_32 := halves2 packs_epi32 shuff shuff in
  let packed_to_16 := halves2 packus_epi16 packed_to_32 packed_to_32 in
  let permuted := permutevar8x32 packed_to_16 pack_lo_dword_2x128 in
  let uv_res := firstn 8 permuted in
  stn ubuf u (firstn 4 uv_res) ;;
  stn vbuf v (skipn 4 uv_res).

(** avx2.rs:473-493 *)
Definition rgb_to_i444_8x (smp : sampler) (src : slice) (rgb : Z)
           (ybuf : slice) (y : Z) (ubuf : slice) (u : Z) (vbuf : slice) (v : Z)
           (y_weights u_weights v_weights : reg * reg * reg) : M unit :=
  l <- ldn src rgb 32 ;;
  let '(rg, bg) := unpack_ui8x3_i16x2_8x smp l in
  stn ybuf y (pack_i32_8x (fix_to_i32_8x (affine_transform_8x rg bg y_weights) FIX16)) ;;
  let tu := affine_transform_8x rg bg u_weights in
  let tv := affine_transform_8x rg bg v_weights in
  stn ubuf u (pack_i32_8x (fix_to_i32_8x tu FIX16)) ;;
  stn vbuf v (pack_i32_8x (fix_to_i32_8x tv FIX16)).

(** avx2.rs:516-521, 569-574, 624-629 *)
Definition y_weights_8x (c : colorimetry) : reg * reg * reg :=
  (set1_epi32 8 (fw c 0), set1_epi32 8 (fw c 1), set1_epi32 8 (fw c 6)).
(** avx2.rs:523-533, 576-586 *)
Definition uv_weights_8x (c : colorimetry) : reg * reg * reg :=
  (set_epi32 [fw c 2; fw c 3; fw c 2; fw c 3; fw c 2; fw c 3; fw c 2; fw c 3],
   set_epi32 [fw c 4; fw c 5; fw c 4; fw c 5; fw c 4; fw c 5; fw c 4; fw c 5],
   set1_epi32 8 (FIX18_C_HALF + (FIX18_HALF - 1))).
(** avx2.rs:631-635 *)
Definition u_weights_8x (c : colorimetry) : reg * reg * reg :=
  (set1_epi32 8 (fw c 3), set1_epi32 8 (fw c 5),
   set1_epi32 8 (FIX16_C_HALF + (FIX16_HALF - 1))).
(** avx2.rs:637-641 *)
Definition v_weights_8x (c : colorimetry) : reg * reg * reg :=
  (set1_epi32 8 (fw c 2), set1_epi32 8 (fw c 4),
   set1_epi32 8 (FIX16_C_HALF + (FIX16_HALF - 1))).

(** avx2.rs:504-555 *)
Definition rgb_to_nv12_avx2 (smp : sampler) (depth : Z) (c : colorimetry) : kernel_1_2 :=
  fun width height src_stride src dst_strides dst =>
  let '(y_stride, uv_stride) := dst_strides in
  let '(ybuf, uvbuf) := dst in
  let src_depth := depth * RGB_TO_YUV_WAVES in
  for_ (height / 2) (fun y => for_ (width / RGB_TO_YUV_WAVES) (fun x =>
    i0 <- wg_index x (2 * y) src_depth src_stride ;;
    i1 <- wg_index x (2 * y + 1) src_depth src_stride ;;
    o0 <- wg_index x (2 * y) RGB_TO_YUV_WAVES y_stride ;;
    o1 <- wg_index x (2 * y + 1) RGB_TO_YUV_WAVES y_stride ;;
    o <- wg_index x y RGB_TO_YUV_WAVES uv_stride ;;
    rgb_to_yuv_8x smp src i0 i1 ybuf o0 o1 uvbuf o (y_weights_8x c) (uv_weights_8x c))).

(** avx2.rs:559-610 *)
Definition rgb_to_i420_avx2 (smp : sampler) (depth : Z) (c : colorimetry) : kernel_1_3 :=
  fun width height src_stride src dst_strides dst =>
  let '(y_stride, u_stride, v_stride) := dst_strides in
  let '(ybuf, ubuf, vbuf) := dst in
  let src_depth := depth * RGB_TO_YUV_WAVES in
  for_ (height / 2) (fun y => for_ (width / RGB_TO_YUV_WAVES) (fun x =>
    i0 <- wg_index x (2 * y) src_depth src_stride ;;
    i1 <- wg_index x (2 * y + 1) src_depth src_stride ;;
    o0 <- wg_index x (2 * y) RGB_TO_YUV_WAVES y_stride ;;
    o1 <- wg_index x (2 * y + 1) RGB_TO_YUV_WAVES y_stride ;;
    ou <- wg_index x y (RGB_TO_YUV_WAVES / 2) u_stride ;;
    ov <- wg_index x y (RGB_TO_YUV_WAVES / 2) v_stride ;;
    rgb_to_i420_8x smp src i0 i1 ybuf o0 o1 ubuf ou vbuf ov (y_weights_8x c) (uv_weights_8x c))).

(** avx2.rs:614-663 *)
Definition rgb_to_i444_avx2 (smp : sampler) (depth : Z) (c : colorimetry) : kernel_1_3 :=
  fun width height src_stride src dst_strides dst =>
  let '(y_stride, u_stride, v_stride) := dst_strides in
  let '(ybuf, ubuf, vbuf) := dst in
  let rgb_depth := depth * RGB_TO_YUV_WAVES in
  for_ height (fun y => for_ (width / RGB_TO_YUV_WAVES) (fun x =>
    i <- wg_index x y rgb_depth src_stride ;;
    oy <- wg_index x y RGB_TO_YUV_WAVES y_stride ;;
    ou <- wg_index x y RGB_TO_YUV_WAVES u_stride ;;
    ov <- wg_index x y RGB_TO_YUV_WAVES v_stride ;;
    rgb_to_i444_8x smp src i ybuf oy ubuf ou vbuf ov
                   (y_weights_8x c) (u_weights_8x c) (v_weights_8x c))).

(** [set1_epi16(weights[i])]: avx2.rs:680-688, 799-807, 918-926, 1038-1046 *)
Definition bw16 (c : colorimetry) (i : nat) : reg := set1_epi16 16 (bw c i).

(** avx2.rs:702-707, 821-826, 941-946, 1083-1091: the chroma terms (sr, sg, sb) *)
Definition chroma_16x (c : colorimetry) (cb cr : reg) : reg * reg * reg :=
  (sub_epi16 (mulhi_epu16 cr (bw16 c 1)) (bw16 c 5),
   sub_epi16 (bw16 c 6) (add_epi16 (mulhi_epu16 cb (bw16 c 3)) (mulhi_epu16 cr (bw16 c 2))),
   sub_epi16 (mulhi_epu16 cb (bw16 c 4)) (bw16 c 7)).

(** avx2.rs:723-728 (with [pack_i16x3_16x]), 841-846 (with [pack_rgb_16x]) and the like:
    one group of sixteen pixels stored by [px]; [y] is the luma term *)
Definition pixels_16x (px : slice -> Z -> reg -> reg -> reg -> M unit)
           (dst : slice) (o : Z) (sr sg sb y : reg) : M unit :=
  px dst o (fix_to_i16_16x (add_epi16 sr y) FIX6)
     (fix_to_i16_16x (add_epi16 sg y) FIX6) (fix_to_i16_16x (add_epi16 sb y) FIX6).

(** avx2.rs:715-722, 1093-1100 and the like: sixteen luma samples of the low half of [y0],
    stored in big endian *)
Definition luma_lo (y0 : reg) : reg :=
  pack_lo_dqword (halves2 (unpacklo 1) zero y0) (halves2 (unpackhi 1) zero y0).
(** avx2.rs:730-737 and the like: those of the high half *)
Definition luma_hi (y0 : reg) : reg :=
  pack_hi_dqword (halves2 (unpacklo 1) zero y0) (halves2 (unpackhi 1) zero y0).

(** avx2.rs:702-779, 821-898, 941-1018 (the same text up to the function that stores the
    pixels, [px], and the number of bytes DST_DEPTH of sixteen pixels): a tile of 32 x 2
    pixels, once the chroma samples are loaded *)
Definition tile_32x2 (px : slice -> Z -> reg -> reg -> reg -> M unit) (dst_depth : Z)
           (c : colorimetry) (ybuf : slice) (y_stride : Z)
           (dst : slice) (dst_stride x y : Z) (cb cr : reg) : M unit :=
  let '(sr, sg, sb) := chroma_16x c cb cr in
  let '(sb_lo, sb_hi) := i16_to_i16x2_16x sb in
  let '(sr_lo, sr_hi) := i16_to_i16x2_16x sr in
  let '(sg_lo, sg_hi) := i16_to_i16x2_16x sg in
  let xxym := bw16 c 0 in
  i0 <- wg_index x (2 * y) YUV_TO_RGB_WAVES y_stride ;;
  y0 <- ldn ybuf i0 32 ;;
  let y00 := mulhi_epu16 (luma_lo y0) xxym in
  o00 <- wg_index (2 * x) (2 * y) dst_depth dst_stride ;;
  pixels_16x px dst o00 sr_lo sg_lo sb_lo y00 ;;
  let y10 := mulhi_epu16 (luma_hi y0) xxym in
  o10 <- wg_index (2 * x + 1) (2 * y) dst_depth dst_stride ;;
  pixels_16x px dst o10 sr_hi sg_hi sb_hi y10 ;;
  i1 <- wg_index x (2 * y + 1) YUV_TO_RGB_WAVES y_stride ;;
  y1 <- ldn ybuf i1 32 ;;
  let y01 := mulhi_epu16 (luma_lo y1) xxym in
  o01 <- wg_index (2 * x) (2 * y + 1) dst_depth dst_stride ;;
  pixels_16x px dst o01 sr_lo sg_lo sb_lo y01 ;;
  let y11 := mulhi_epu16 (luma_hi y1) xxym in
  o11 <- wg_index (2 * x + 1) (2 * y + 1) dst_depth dst_stride ;;
  pixels_16x px dst o11 sr_hi sg_hi sb_hi y11.

(** avx2.rs:667-782 *)
Definition nv12_to_bgra_avx2 (c : colorimetry) (reversed : bool) : kernel_2_1 :=
  fun width height src_strides src dst_stride dst =>
  let '(y_stride, uv_stride) := src_strides in
  let '(ybuf, uvbuf) := src in
  for_ (height / 2) (fun y => for_ (width / YUV_TO_RGB_WAVES) (fun x =>
    i <- wg_index x y YUV_TO_RGB_WAVES uv_stride ;;
    '(cb, cr) <- unpack_ui8x2_i16be_16x uvbuf i ;;
    tile_32x2 (store_i16x3_16x reversed) (2 * YUV_TO_RGB_WAVES) c
              ybuf y_stride dst dst_stride x y cb cr)).

(** avx2.rs:786-901 *)
Definition nv12_to_rgb_avx2 (c : colorimetry) : kernel_2_1 :=
  fun width height src_strides src dst_stride dst =>
  let '(y_stride, uv_stride) := src_strides in
  let '(ybuf, uvbuf) := src in
  for_ (height / 2) (fun y => for_ (width / YUV_TO_RGB_WAVES) (fun x =>
    i <- wg_index x y YUV_TO_RGB_WAVES uv_stride ;;
    '(cb, cr) <- unpack_ui8x2_i16be_16x uvbuf i ;;
    tile_32x2 store_rgb_16x 48 c ybuf y_stride dst dst_stride x y cb cr)).

(** avx2.rs:905-1021 *)
Definition i420_to_bgra_avx2 (c : colorimetry) (reversed : bool) : kernel_3_1 :=
  fun width height src_strides src dst_stride dst =>
  let '(y_stride, u_stride, v_stride) := src_strides in
  let '(ybuf, ubuf, vbuf) := src in
  for_ (height / 2) (fun y => for_ (width / YUV_TO_RGB_WAVES) (fun x =>
    iu <- wg_index x y (YUV_TO_RGB_WAVES / 2) u_stride ;;
    cb <- unpack_ui8_i16be_16x ubuf iu ;;
    iv <- wg_index x y (YUV_TO_RGB_WAVES / 2) v_stride ;;
    cr <- unpack_ui8_i16be_16x vbuf iv ;;
    tile_32x2 (store_i16x3_16x reversed) (2 * YUV_TO_RGB_WAVES) c
              ybuf y_stride dst dst_stride x y cb cr)).

(** avx2.rs:1058-1069: [_mm256_set_m128i(zero_128, loadu(..))] *)
Definition load_lo_16x (s : slice) (image : Z) : M reg :=
  q <- ldn s image 16 ;; ret (q ++ setzero 16).

(** avx2.rs:1025-1109 *)
Definition i444_to_bgra_avx2 (c : colorimetry) (reversed : bool) : kernel_3_1 :=
  fun width height src_strides src dst_stride dst =>
  let '(y_stride, u_stride, v_stride) := src_strides in
  let '(ybuf, ubuf, vbuf) := src in
  let src_depth := YUV_TO_RGB_WAVES / 2 in
  for_ height (fun y => for_ (width / src_depth) (fun x =>
    iu <- wg_index x y src_depth u_stride ;;
    cb <- load_lo_16x ubuf iu ;;
    iv <- wg_index x y src_depth v_stride ;;
    cr <- load_lo_16x vbuf iv ;;
    iy <- wg_index x y src_depth y_stride ;;
    y0 <- load_lo_16x ybuf iy ;;
    let cb_lo := luma_lo cb in
    let cr_lo := luma_lo cr in
    let '(sr_lo, sg_lo, sb_lo) := chroma_16x c cb_lo cr_lo in
    let y_lo := mulhi_epu16 (luma_lo y0) (bw16 c 0) in
    o <- wg_index x y (2 * YUV_TO_RGB_WAVES) dst_stride ;;
    pixels_16x (store_i16x3_16x reversed) dst o sr_lo sg_lo sb_lo y_lo)).

(** avx2.rs:1124-1177: the masks of [bgr_to_rgb_avx2] *)
Definition swap_mask_bgr0 : reg := setr_epi8
  [ 2; 1; 0; 5; 4; 3; 8; 7; 6; 11; 10; 9; 14; 13; 12; -128;
    0; -128; 4; 3; 2; 7; 6; 5; 10; 9; 8; 13; 12; 11; -128; 15 ].
(** avx2.rs:1129-1132 *)
Definition swap_mask_bgr1 : reg := setr_epi8
  [ -128; 3; 2; 1; 6; 5; 4; 9; 8; 7; 12; 11; 10; 15; 14; 13;
    2; 1; 0; 5; 4; 3; 8; 7; 6; 11; 10; 9; 14; 13; 12; -128 ].
(** avx2.rs:1134-1137 *)
Definition swap_mask_bgr2 : reg := setr_epi8
  [ 0; -128; 4; 3; 2; 7; 6; 5; 10; 9; 8; 13; 12; 11; -128; 15;
    -128; 3; 2; 1; 6; 5; 4; 9; 8; 7; 12; 11; 10; 15; 14; 13 ].
(** A mask that is -128 everywhere but at the given places, lists of (place, value);
    the six border masks of avx2.rs:1139-1173 are literals of this form. *)
Definition border_mask (l : list (nat * Z)) : reg :=
  setr_epi8 (fold_left (fun m p => upd m (fst p) (snd p)) l (repeat (-128) 32)).
(** avx2.rs:1139-1143 *)
Definition border_mask_bgr0 : reg := border_mask [(15%nat, 13); (17%nat, 3)].
(** avx2.rs:1145-1149 *)
Definition border_mask_bgr0_bgr1 : reg := border_mask [(30%nat, 12)].
(** avx2.rs:1151-1155 *)
Definition border_mask_bgr1_bgr0 : reg := border_mask [(0%nat, 2)].
(** avx2.rs:1157-1161 *)
Definition border_mask_bgr1_bgr2 : reg := border_mask [(31%nat, 13)].
(** avx2.rs:1163-1167 *)
Definition border_mask_bgr2 : reg := border_mask [(14%nat, 12); (16%nat, 2)].
(** avx2.rs:1169-1173 *)
Definition border_mask_bgr2_bgr1 : reg := border_mask [(1%nat, 3)].
(** avx2.rs:1175 *)
Definition sh_mask_intra_lane : reg := setr_epi32 [0; 1; 2; 4; 3; 5; 6; 7].
(** avx2.rs:1176 *)
Definition sh_mask_set_last : reg := setr_epi32 [0; 1; 2; 3; 4; 5; 6; 0].
(** avx2.rs:1177 *)
Definition sh_mask_set_first : reg := setr_epi32 [7; 1; 2; 3; 4; 5; 6; 7].

(** avx2.rs:1194-1234: the three output registers *)
Definition bgr_to_rgb_32x (bgr0 bgr1 bgr2 : reg) : reg * reg * reg :=
  (or_si (or_si (halves2 shuffle_epi8 bgr0 swap_mask_bgr0)
                (halves2 shuffle_epi8 (permutevar8x32 bgr0 sh_mask_intra_lane) border_mask_bgr0))
         (halves2 shuffle_epi8 (permutevar8x32 bgr1 sh_mask_set_last) border_mask_bgr0_bgr1),
   or_si (or_si (halves2 shuffle_epi8 bgr1 swap_mask_bgr1)
                (halves2 shuffle_epi8 (permutevar8x32 bgr0 sh_mask_set_first) border_mask_bgr1_bgr0))
         (halves2 shuffle_epi8 (permutevar8x32 bgr2 sh_mask_set_last) border_mask_bgr1_bgr2),
   or_si (or_si (halves2 shuffle_epi8 bgr2 swap_mask_bgr2)
                (halves2 shuffle_epi8 (permutevar8x32 bgr2 sh_mask_intra_lane) border_mask_bgr2))
         (halves2 shuffle_epi8 (permutevar8x32 bgr1 sh_mask_set_first) border_mask_bgr2_bgr1)).

(** avx2.rs:1187-1241: thirty-two pixels; carried variables (src_offset, dst_offset) *)
Definition bgr_to_rgb_step32 (src dst : slice) (st_ : Z * Z) : M (Z * Z) :=
  let '(so, do_) := st_ in
  bgr0 <- ldn src so 32 ;;
  bgr1 <- ldn src (so + 32) 32 ;;
  bgr2 <- ldn src (so + 64) 32 ;;
  let '(rgb0, rgb1, rgb2) := bgr_to_rgb_32x bgr0 bgr1 bgr2 in
  stn dst do_ rgb0 ;;
  stn dst (do_ + 32) rgb1 ;;
  stn dst (do_ + 64) rgb2 ;;
  so' <- uadd so (3 * LANE_COUNT) ;;
  do' <- uadd do_ (3 * LANE_COUNT) ;;
  ret (so', do').

(** avx2.rs:1114-1244; [(0..width).step_by(32)] has [ceil(width / 32)] items *)
Definition bgr_to_rgb_avx2 : kernel_1_1 :=
  fun width height src_stride src dst_stride dst =>
  for_ height (fun i =>
    so <- umul src_stride i ;;
    do_ <- umul dst_stride i ;;
    loop (Z.to_nat ((width + 31) / 32)) (so, do_) (bgr_to_rgb_step32 src dst) ;;
    ret tt).

(** avx2.rs:1260-1263 *)
Definition shf_mask_bgra : reg := setr_epi8
  [ 2; 1; 0; 6; 5; 4; 10; 9; 8; 14; 13; 12; -128; -128; -128; -128;
    2; 1; 0; 6; 5; 4; 10; 9; 8; 14; 13; 12; -128; -128; -128; -128 ].
(** avx2.rs:1264-1267 *)
Definition shf_mask_no_comb : reg := setr_epi8
  [ 2; 1; 0; 6; 5; 4; 10; 9; 8; 14; 13; 12; 0; 0; 0; 0;
    2; 1; 0; 6; 5; 4; 10; 9; 8; 14; 13; 12; 0; 0; 0; 0 ].
(** avx2.rs:1268 *)
Definition pk_mask : reg := setr_epi32 [0; 1; 2; 4; 5; 6; 3; 7].

(** avx2.rs:1292-1316: the three output registers of thirty-two pixels *)
Definition bgra_to_rgb_32x (bgra0 bgra1 bgra2 bgra3 : reg) : reg * reg * reg :=
  let f x := permutevar8x32 (halves2 shuffle_epi8 x shf_mask_bgra) pk_mask in
  let rgb0 := f bgra0 in
  let rgb1 := f bgra1 in
  let rgb2 := f bgra2 in
  let rgb3 := f bgra3 in
  (or_si rgb0 (permute4x64 rgb1 (shuffle 0 3 3 3)),
   or_si (permute4x64 rgb1 (shuffle 3 3 2 1)) (permute4x64 rgb2 (shuffle 1 0 3 3)),
   or_si (permute4x64 rgb2 (shuffle 3 3 3 2)) (permute4x64 rgb3 (shuffle 2 1 0 3))).

(** avx2.rs:1283-1321: carried variables (y, src_offset, dst_offset) *)
Definition bgra_to_rgb_step32 (src dst : slice) (st_ : Z * Z * Z) : M (Z * Z * Z) :=
  let '(y, so, do_) := st_ in
  bgra0 <- ldn src so 32 ;;
  bgra1 <- ldn src (so + 32) 32 ;;
  bgra2 <- ldn src (so + 64) 32 ;;
  bgra3 <- ldn src (so + 96) 32 ;;
  let '(r0, r1, r2) := bgra_to_rgb_32x bgra0 bgra1 bgra2 bgra3 in
  stn dst do_ r0 ;;
  stn dst (do_ + 32) r1 ;;
  stn dst (do_ + 64) r2 ;;
  so' <- uadd so (4 * LANE_COUNT) ;;
  do' <- uadd do_ (3 * LANE_COUNT) ;;
  y' <- uadd y LANE_COUNT ;;
  ret (y', so', do').

(** avx2.rs:1324-1339: eight pixels; [_mm256_extract_epi64(rgb0, 2)] is bytes 16 to 23 *)
Definition bgra_to_rgb_step8_avx2 (src dst : slice) (st_ : Z * Z * Z) : M (Z * Z * Z) :=
  let '(y, so, do_) := st_ in
  bgra0 <- ldn src so 32 ;;
  let rgb0 := permutevar8x32 (halves2 shuffle_epi8 bgra0 shf_mask_no_comb) pk_mask in
  stn dst do_ (lo rgb0) ;;
  o <- uadd do_ 16 ;;
  stn dst o (elem 8 2 rgb0) ;;
  so' <- uadd so (4 * 8) ;;
  do' <- uadd do_ (3 * 8) ;;
  y' <- uadd y 8 ;;
  ret (y', so', do').

(** avx2.rs:1349-1354: one pixel *)
Definition bgra_to_rgb_rest1 (src dst : slice) (src_offset dst_offset y : Z) : M unit :=
  d0 <- umul 3 y ;; d0' <- uadd d0 dst_offset ;;
  s0 <- umul 4 y ;; s0' <- uadd s0 2 ;; s0'' <- uadd s0' src_offset ;;
  v0 <- ld src s0'' ;; st dst d0' v0 ;;
  d1 <- umul 3 y ;; d1' <- uadd d1 1 ;; d1'' <- uadd d1' dst_offset ;;
  s1 <- umul 4 y ;; s1' <- uadd s1 1 ;; s1'' <- uadd s1' src_offset ;;
  v1 <- ld src s1'' ;; st dst d1'' v1 ;;
  d2 <- umul 3 y ;; d2' <- uadd d2 2 ;; d2'' <- uadd d2' dst_offset ;;
  s2 <- umul 4 y ;; s2' <- uadd s2 src_offset ;;
  v2 <- ld src s2' ;; st dst d2'' v2.

(** avx2.rs:1248-1361. The two [while] loops have as many iterations as written. *)
Definition bgra_to_rgb_avx2 : kernel_1_1 :=
  fun width height src_stride src dst_stride dst =>
  sw <- umul 4 width ;; src_diff <- usub src_stride sw ;;
  dw <- umul 3 width ;; dst_diff <- usub dst_stride dw ;;
  let limit_4x := lower_multiple_of_pot width LANE_COUNT in
  let limit := lower_multiple_of_pot width 8 in
  for_ height (fun i =>
    a <- umul 4 width ;; ss <- uadd a src_diff ;; so <- umul ss i ;;
    b <- umul 3 width ;; ds <- uadd b dst_diff ;; do_ <- umul ds i ;;
    s1 <- loop (Z.to_nat ((limit_4x + 31) / 32)) (0, so, do_) (bgra_to_rgb_step32 src dst) ;;
    loop (Z.to_nat ((limit - fst (fst s1) + 7) / 8)) s1 (bgra_to_rgb_step8_avx2 src dst) ;;
    ret tt) ;;
  if limit =? width then ret tt
  else
    loop (Z.to_nat height) (0, 0) (fun st_ =>
      let '(so, do_) := st_ in
      for_from (Z.to_nat (width - limit)) limit (fun y => bgra_to_rgb_rest1 src dst so do_ y) ;;
      a <- umul 4 width ;; ss <- uadd a src_diff ;; so' <- uadd so ss ;;
      b <- umul 3 width ;; ds <- uadd b dst_diff ;; do' <- uadd do_ ds ;;
      ret (so', do')) ;;
    ret tt.

(** avx2.rs:1376 *)
Definition alpha_mask : reg := set1_epi32 8 (-16777216).
(** avx2.rs:1377-1380 *)
Definition shf_mask_rgb : reg := setr_epi8
  [ 2; 1; 0; -1; 5; 4; 3; -1; 8; 7; 6; -1; 11; 10; 9; -1;
    2; 1; 0; -1; 5; 4; 3; -1; 8; 7; 6; -1; 11; 10; 9; -1 ].

(** avx2.rs:1408-1446: the four output registers of thirty-two pixels *)
Definition rgb_to_bgra_32x (reg0 reg1 reg2 : reg) : reg * reg * reg * reg :=
  let f x := or_si (halves2 shuffle_epi8 x shf_mask_rgb) alpha_mask in
  let input := permutevar8x32 reg0 (set_epi32 [6; 5; 4; 3; 3; 2; 1; 0]) in
  let input1 := blend_epi32 (permute4x64 reg0 (shuffle 0 0 0 3))
                            (permutevar8x32 reg1 (set_epi32 [4; 3; 2; 1; 1; 0; 0; 0])) 252 in
  let input2 := blend_epi32 (permutevar8x32 reg1 (set_epi32 [0; 0; 0; 7; 7; 6; 5; 4]))
                            (permutevar8x32 reg2 (set_epi32 [2; 1; 0; 0; 0; 0; 0; 0])) 224 in
  let input3 := permutevar8x32 reg2 (set_epi32 [4; 7; 6; 5; 5; 4; 3; 2]) in
  (f input, f input1, f input2, f input3).

(** avx2.rs:1391-1451: thirty-two pixels; carried variables (src_offset, dst_offset) *)
Definition rgb_to_bgra_step32 (src dst : slice) (st_ : Z * Z) : M (Z * Z) :=
  let '(so, do_) := st_ in
  reg0 <- ldn src so 32 ;;
  reg1 <- ldn src (so + 32) 32 ;;
  reg2 <- ldn src (so + 64) 32 ;;
  let '(r0, r1, r2, r3) := rgb_to_bgra_32x reg0 reg1 reg2 in
  stn dst do_ r0 ;;
  stn dst (do_ + 32) r1 ;;
  stn dst (do_ + 64) r2 ;;
  stn dst (do_ + 96) r3 ;;
  so' <- uadd so (LANE_COUNT * 3) ;;
  do' <- uadd do_ (LANE_COUNT * 4) ;;
  ret (so', do').

(** avx2.rs:1365-1456; the prefetch has no effect.  The third load is done after the
    first two stores; source and destination are disjoint, so it is moved up. *)
Definition rgb_to_bgra_avx2 : kernel_1_1 :=
  fun width height src_stride src dst_stride dst =>
  sw <- umul 3 width ;; src_diff <- usub src_stride sw ;;
  dw <- umul 4 width ;; dst_diff <- usub dst_stride dw ;;
  loop (Z.to_nat height) (0, 0) (fun st_ =>
    '(so, do_) <- loop (Z.to_nat ((width + 31) / 32)) st_ (rgb_to_bgra_step32 src dst) ;;
    so' <- uadd so src_diff ;; do' <- uadd do_ dst_diff ;;
    ret (so', do')) ;;
  ret tt.

(** ** The converters: avx2.rs:1460-2290 *)

(** avx2.rs:1460-1569 *)
Definition avx2_nv12_rgb (c : colorimetry) (depth : Z) (rev : bool) : converter :=
  nv12_rgb_w depth
    (hyb_2_1 (fun w => lower_multiple_of_pot w YUV_TO_RGB_WAVES) depth
             (if depth =? 4 then nv12_to_bgra_avx2 c rev else nv12_to_rgb_avx2 c)
             (if depth =? 4 then nv12_to_bgra c rev else nv12_to_rgb c)).
(** avx2.rs:1572-1659 *)
Definition avx2_i420_rgb (c : colorimetry) (depth : Z) (rev : bool) : converter :=
  i4xx_rgb_w 2 depth
    (hyb_3_1 (fun w => lower_multiple_of_pot w YUV_TO_RGB_WAVES) 2 depth
             (i420_to_bgra_avx2 c rev) (i420_to_bgra c rev)).
(** avx2.rs:1662-1745 *)
Definition avx2_i444_rgb (c : colorimetry) (depth : Z) (rev : bool) : converter :=
  i4xx_rgb_w 1 depth
    (hyb_3_1 (fun w => lower_multiple_of_pot w (YUV_TO_RGB_WAVES / 2)) 1 depth
             (i444_to_bgra_avx2 c rev) (i444_to_bgra c rev)).
(** avx2.rs:1935-2020 *)
Definition avx2_rgb_i444 (s : sampler) (depth : Z) (c : colorimetry) : converter :=
  rgb_i4xx_w 1 depth
    (hyb_1_3 (fwd_vector_part RGB_TO_YUV_WAVES depth) 1 depth
             (rgb_to_i444_avx2 s depth c) (rgb_to_i444 s depth c)).
(** avx2.rs:1844-1932 *)
Definition avx2_rgb_i420 (s : sampler) (depth : Z) (c : colorimetry) : converter :=
  rgb_i4xx_w 2 depth
    (hyb_1_3 (fwd_vector_part RGB_TO_YUV_WAVES depth) 2 depth
             (rgb_to_i420_avx2 s depth c) (rgb_to_i420 s depth c)).
(** avx2.rs:1748-1841 *)
Definition avx2_rgb_nv12 (s : sampler) (depth : Z) (c : colorimetry) : converter :=
  rgb_nv12_w depth
    (hyb_1_2 (fwd_vector_part RGB_TO_YUV_WAVES depth) depth
             (rgb_to_nv12_avx2 s depth c) (rgb_to_nv12 s depth c)).
(** avx2.rs:2087-2163 *)
Definition avx2_rgb_bgra : converter :=
  rgb_rgb_w 3 4 (hyb_1_1 (fun w => lower_multiple_of_pot w LANE_COUNT) 3 4
                         rgb_to_bgra_avx2 rgb_to_bgra).
(** avx2.rs:2165-2214 *)
Definition avx2_bgra_rgb : converter := rgb_rgb_w 4 3 bgra_to_rgb_avx2.
(** avx2.rs:2216-2290 *)
Definition avx2_bgr_rgb : converter :=
  rgb_rgb_w 3 3 (hyb_1_1 (fun w => lower_multiple_of_pot w LANE_COUNT) 3 3
                         bgr_to_rgb_avx2 bgr_to_rgb).
