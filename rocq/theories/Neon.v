(** Model of src/convert_image/neon.rs.

    A vector is the list of its lanes, lane 0 first, each lane an unsigned number; signed
    instructions read their lanes through [i16] / [i32] of [Simd].  The instructions are
    after the Arm intrinsics reference. Conventions for indices as in [Scalar]. *)
From Coq Require Import ZArith List Bool.
Import ListNotations.
From Verif Require Import Base Common Scalar Wrappers Simd Vector.
Open Scope Z_scope.

Definition vec := list Z.

(** ** Instructions *)
(** Structure loads [vld3_u8], [vld4_u8], [vld3q_u8], [vld4q_u8]: member [k] of a
    structure of [m] vectors of [n] lanes *)
Definition member (m n k : nat) (bytes : list Z) : vec :=
  map (fun i => nth (m * i + k) bytes 0) (seq 0 n).
(** Structure stores [vst3q_u8], [vst4q_u8]: the bytes stored; [n] lanes *)
Definition interleave (n : nat) (vs : list vec) : list Z :=
  flat_map (fun i => map (fun v => nth i v 0) vs) (seq 0 n).
(** [vmovl_u8]: widening, the value is the same *)
Definition vmovl_u8 (x : vec) : vec := x.
(** [vget_low_*], and the half the [_high] instructions read, of 8 lanes *)
Definition vget_low (x : vec) : vec := firstn 4 x.
Definition high (x : vec) : vec := skipn 4 x.
(** [vcombine_*] *)
Definition vcombine (x y : vec) : vec := x ++ y.
(** [vdupq_n_*]: 8 lanes of 16 bits *)
Definition vdupq_n_16 (a : Z) : vec := repeat (a mod 65536) 8.
(** [vaddq_u16], [vaddq_s16] *)
Definition vaddq_16 (x y : vec) : vec := map2 (fun a b => (a + b) mod 65536) x y.
(** [vpaddq_u16] *)
Definition vpaddq_u16 (x y : vec) : vec := map (fun a => a mod 65536) (pair_sums (x ++ y)).
(** [vmull_n_u16], [vmull_high_n_u16] (on the high half) *)
Definition vmull_n_u16 (x : vec) (a : Z) : vec := map (fun e => (e * a) mod 4294967296) x.
(** [vmlal_n_u16], [vmlal_high_n_u16] *)
Definition vmlal_n_u16 (s x : vec) (a : Z) : vec :=
  map2 (fun t e => (t + e * a) mod 4294967296) s x.
(** [vmull_n_s16], [vmull_high_n_s16] *)
Definition vmull_n_s16 (x : vec) (a : Z) : vec := map (fun e => (i16 e * a) mod 4294967296) x.
(** [vmlal_n_s16], [vmlal_high_n_s16] *)
Definition vmlal_n_s16 (s x : vec) (a : Z) : vec :=
  map2 (fun t e => (t + i16 e * a) mod 4294967296) s x.
(** [vrshrn_n_u32]: rounding shift right, narrowed to 16 bits *)
Definition vrshrn_n_u32 (n : Z) (x : vec) : vec :=
  map (fun e => ((e + 2 ^ (n - 1)) / 2 ^ n) mod 65536) x.
(** [vrshrn_n_s32] *)
Definition vrshrn_n_s32 (n : Z) (x : vec) : vec :=
  map (fun e => ((i32 e + 2 ^ (n - 1)) / 2 ^ n) mod 65536) x.
(** [vshrq_n_s32] *)
Definition vshrq_n_s32 (n : Z) (x : vec) : vec := map (fun e => (i32 e / 2 ^ n) mod 4294967296) x.
(** [vqmovn_u16]: saturating narrowing to bytes *)
Definition vqmovn_u16 (x : vec) : vec := map (sat 0 255) x.
(** [vzip1_s16], [vzip2_s16] on 4 lanes *)
Definition vzip1_16 (x y : vec) : vec := [nth 0 x 0; nth 0 y 0; nth 1 x 0; nth 1 y 0].
Definition vzip2_16 (x y : vec) : vec := [nth 2 x 0; nth 2 y 0; nth 3 x 0; nth 3 y 0].

(** ** Constants *)
(** neon.rs:28 *)
Definition LANE_COUNT : Z := 16.
(** neon.rs:29-30: [LANE_COUNT / RGB_TO_YUV_WG_SIZE] *)
Definition RGB_TO_YUV_WAVES : Z := LANE_COUNT / 2.
(** common.rs:63-68; the compile-time assertion holds for all uses *)
Definition as_i16 (x : Z) : Z := i16 (Z.land x 0xFFFF).
(** common.rs:70-75 *)
Definition as_u16 (x : Z) : Z := Z.land x 0xFFFF.

(** neon.rs:32-93: first part of row [c] of FORWARD_WEIGHTS *)
Definition y_weights (c : colorimetry) : Z * Z * Z * Z :=
  (as_u16 (XR c), as_u16 (XG c), as_u16 (XB c),
   match c with C601 | C709 => as_u16 Y_MIN | C601FR | C709FR => 0 end).
(** neon.rs:32-93: second part of row [c] of FORWARD_WEIGHTS *)
Definition uv_weights (c : colorimetry) : Z * Z * Z * Z * Z :=
  (as_i16 (YR c), as_i16 (YG c), as_i16 (ZG c), as_i16 (- (YR c + YG c)),
   as_i16 (- ZG c + YR c + YG c)).
(** neon.rs:94 *)
Definition UV_BIAS : Z := as_i16 C_HALF.

(** ** Functions *)
(** neon.rs:97-110: the number of bytes loaded *)
Definition load_len (smp : sampler) : Z := match smp with S_Bgr => 24 | _ => 32 end.
(** neon.rs:97-110: (red, green, blue) of the bytes loaded *)
Definition load_rgb_8x (smp : sampler) (bytes : list Z) : vec * vec * vec :=
  match smp with
  | S_Bgr => (vmovl_u8 (member 3 8 2 bytes), vmovl_u8 (member 3 8 1 bytes),
              vmovl_u8 (member 3 8 0 bytes))
  | S_Argb => (vmovl_u8 (member 4 8 1 bytes), vmovl_u8 (member 4 8 2 bytes),
               vmovl_u8 (member 4 8 3 bytes))
  | S_Bgra => (vmovl_u8 (member 4 8 2 bytes), vmovl_u8 (member 4 8 1 bytes),
               vmovl_u8 (member 4 8 0 bytes))
  end.

(** neon.rs:113-129, one of the three components *)
Definition avg_8x (top bot : vec) : vec :=
  let r := vaddq_16 top bot in vpaddq_u16 r r.

(** neon.rs:132-145; the argument [rgb_lo] is [vget_low] of [rgb] in every call *)
Definition rgb_to_us_8x (r g b : vec) (w0 w1 w2 : Z) : vec :=
  let lo := vmull_n_u16 (vget_low r) w0 in
  let hi := vmull_n_u16 (high r) w0 in
  let lo := vmlal_n_u16 lo (vget_low g) w1 in
  let hi := vmlal_n_u16 hi (high g) w1 in
  let lo := vmlal_n_u16 lo (vget_low b) w2 in
  let hi := vmlal_n_u16 hi (high b) w2 in
  vcombine (vrshrn_n_u32 FIX16 lo) (vrshrn_n_u32 FIX16 hi).

(** neon.rs:148-161 *)
Definition rgb_to_s_8x (r g b : vec) (w0 w1 w2 : Z) : vec :=
  let lo := vmull_n_s16 (vget_low r) w0 in
  let hi := vmull_n_s16 (high r) w0 in
  let lo := vmlal_n_s16 lo (vget_low g) w1 in
  let hi := vmlal_n_s16 hi (high g) w1 in
  let lo := vmlal_n_s16 lo (vget_low b) w2 in
  let hi := vmlal_n_s16 hi (high b) w2 in
  vcombine (vrshrn_n_s32 FIX16 lo) (vrshrn_n_s32 FIX16 hi).

(** neon.rs:164-178 *)
Definition rgb_to_y_8x (c : colorimetry) (r g b : vec) : list Z :=
  let '(w0, w1, w2, w3) := y_weights c in
  vqmovn_u16 (vaddq_16 (rgb_to_us_8x r g b w0 w1 w2) (vdupq_n_16 w3)).

(** neon.rs:181-204 *)
Definition rgb_to_uv_8x (c : colorimetry) (r g b : vec) : vec * vec :=
  let '(w0, w1, w2, w3, w4) := uv_weights c in
  let lo := vmull_n_s16 (high r) w0 in
  let hi := vmull_n_s16 (high r) w3 in
  let lo := vmlal_n_s16 lo (high g) w1 in
  let hi := vmlal_n_s16 hi (high g) w2 in
  let lo := vmlal_n_s16 lo (high b) w3 in
  let hi := vmlal_n_s16 hi (high b) w4 in
  let lo := vshrq_n_s32 (FIX18 - FIX16) lo in
  let hi := vshrq_n_s32 (FIX18 - FIX16) hi in
  (vrshrn_n_s32 FIX16 lo, vrshrn_n_s32 FIX16 hi).

(** neon.rs:207-229 *)
Definition rgb_to_y_and_avg_uv_8x (smp : sampler) (c : colorimetry) (src : slice) (top bot : Z)
           (ybuf : slice) (y_top y_bot : Z) : M (vec * vec) :=
  l0 <- ldn src top (Z.to_nat (load_len smp)) ;;
  let '(r0, g0, b0) := load_rgb_8x smp l0 in
  stn ybuf y_top (rgb_to_y_8x c r0 g0 b0) ;;
  l1 <- ldn src bot (Z.to_nat (load_len smp)) ;;
  let '(r1, g1, b1) := load_rgb_8x smp l1 in
  stn ybuf y_bot (rgb_to_y_8x c r1 g1 b1) ;;
  ret (rgb_to_uv_8x c (avg_8x r0 r1) (avg_8x g0 g1) (avg_8x b0 b1)).

(** neon.rs:265-273: bias and saturation *)
Definition chroma_8x (x : vec) : list Z := vqmovn_u16 (vaddq_16 x (vdupq_n_16 UV_BIAS)).

(** neon.rs:232-274; lines 246-254 are [rgb_to_y_8x] written out *)
Definition rgb_to_i444_8x (smp : sampler) (c : colorimetry) (src : slice) (rgb : Z)
           (ybuf : slice) (y : Z) (ubuf : slice) (u : Z) (vbuf : slice) (v : Z) : M unit :=
  l <- ldn src rgb (Z.to_nat (load_len smp)) ;;
  let '(r, g, b) := load_rgb_8x smp l in
  stn ybuf y (rgb_to_y_8x c r g b) ;;
  let '(w0, w1, w2, w3, w4) := uv_weights c in
  stn ubuf u (chroma_8x (rgb_to_s_8x r g b w0 w1 w3)) ;;
  stn vbuf v (chroma_8x (rgb_to_s_8x r g b w3 w2 w4)).

(** neon.rs:277-292 *)
Definition rgb_to_nv12_8x (smp : sampler) (c : colorimetry) (src : slice) (top bot : Z)
           (ybuf : slice) (y_top y_bot : Z) (uvbuf : slice) (uv : Z) : M unit :=
  '(lo, hi) <- rgb_to_y_and_avg_uv_8x smp c src top bot ybuf y_top y_bot ;;
  stn uvbuf uv (chroma_8x (vcombine (vzip1_16 lo hi) (vzip2_16 lo hi))).

(** neon.rs:295-312 *)
Definition rgb_to_i420_8x (smp : sampler) (c : colorimetry) (src : slice) (top bot : Z)
           (ybuf : slice) (y_top y_bot : Z) (ubuf : slice) (u : Z) (vbuf : slice) (v : Z) : M unit :=
  '(lo, hi) <- rgb_to_y_and_avg_uv_8x smp c src top bot ybuf y_top y_bot ;;
  let u_then_v := chroma_8x (vcombine lo hi) in
  stn ubuf u (firstn 4 u_then_v) ;;
  stn vbuf v (skipn 4 u_then_v).

(** neon.rs:316-348 *)
Definition rgb_to_nv12_neon (smp : sampler) (depth : Z) (c : colorimetry) : kernel_1_2 :=
  fun width height src_stride src dst_strides dst =>
  let '(y_stride, uv_stride) := dst_strides in
  let '(ybuf, uvbuf) := dst in
  let src_depth := depth * RGB_TO_YUV_WAVES in
  for_ (height / 2) (fun y => for_ (width / RGB_TO_YUV_WAVES) (fun x =>
    i0 <- wg_index x (2 * y) src_depth src_stride ;;
    i1 <- wg_index x (2 * y + 1) src_depth src_stride ;;
    o0 <- wg_index x (2 * y) RGB_TO_YUV_WAVES y_stride ;;
    o1 <- wg_index x (2 * y + 1) RGB_TO_YUV_WAVES y_stride ;;
    o <- wg_index x y RGB_TO_YUV_WAVES uv_stride ;;
    rgb_to_nv12_8x smp c src i0 i1 ybuf o0 o1 uvbuf o)).

(** neon.rs:352-384 *)
Definition rgb_to_i420_neon (smp : sampler) (depth : Z) (c : colorimetry) : kernel_1_3 :=
  fun width height src_stride src dst_strides dst =>
  let '(y_stride, u_stride, v_stride) := dst_strides in
  let '(ybuf, ubuf, vbuf) := dst in
  let src_depth := depth * RGB_TO_YUV_WAVES in
  for_ (height / 2) (fun y => for_ (width / RGB_TO_YUV_WAVES) (fun x =>
    i0 <- wg_index x (2 * y) src_depth src_stride ;;
    i1 <- wg_index x (2 * y + 1) src_depth src_stride ;;
    o0 <- wg_index x (2 * y) RGB_TO_YUV_WAVES y_stride ;;
    o1 <- wg_index x (2 * y + 1) RGB_TO_YUV_WAVES y_stride ;;
    ou <- wg_index x y (RGB_TO_YUV_WAVES / 2) u_stride ;;
    ov <- wg_index x y (RGB_TO_YUV_WAVES / 2) v_stride ;;
    rgb_to_i420_8x smp c src i0 i1 ybuf o0 o1 ubuf ou vbuf ov)).

(** neon.rs:388-417 *)
Definition rgb_to_i444_neon (smp : sampler) (depth : Z) (c : colorimetry) : kernel_1_3 :=
  fun width height src_stride src dst_strides dst =>
  let '(y_stride, u_stride, v_stride) := dst_strides in
  let '(ybuf, ubuf, vbuf) := dst in
  let rgb_depth := depth * RGB_TO_YUV_WAVES in
  for_ height (fun y => for_ (width / RGB_TO_YUV_WAVES) (fun x =>
    i <- wg_index x y rgb_depth src_stride ;;
    oy <- wg_index x y RGB_TO_YUV_WAVES y_stride ;;
    ou <- wg_index x y RGB_TO_YUV_WAVES u_stride ;;
    ov <- wg_index x y RGB_TO_YUV_WAVES v_stride ;;
    rgb_to_i444_8x smp c src i ybuf oy ubuf ou vbuf ov)).

(** neon.rs:684-710, 714-741, 745-772: sixteen pixels; [m] bytes a source pixel.
    Carried variables (src_offset, dst_offset). *)
Definition reorder_step16 (m : nat) (out : list Z -> list vec) (src dst : slice) (st_ : Z * Z)
  : M (Z * Z) :=
  let '(so, do_) := st_ in
  x <- ldn src so (m * 16) ;;
  let y := out x in
  stn dst do_ (interleave 16 y) ;;
  so' <- uadd so (Z.of_nat m * LANE_COUNT) ;;
  do' <- uadd do_ (zlen y * LANE_COUNT) ;;
  ret (so', do').
(** The loops of the three functions; [(0..width).step_by(16)] has [ceil(width / 16)] items *)
Definition reorder_neon (m : nat) (out : list Z -> list vec) : kernel_1_1 :=
  fun width height src_stride src dst_stride dst =>
  for_ height (fun i =>
    so <- umul src_stride i ;;
    do_ <- umul dst_stride i ;;
    loop (Z.to_nat ((width + 15) / 16)) (so, do_) (reorder_step16 m out src dst) ;;
    ret tt).

(** neon.rs:684-710 *)
Definition bgr_to_rgb_neon : kernel_1_1 :=
  reorder_neon 3 (fun x => [member 3 16 2 x; member 3 16 1 x; member 3 16 0 x]).
(** neon.rs:714-741 *)
Definition bgra_to_rgb_neon : kernel_1_1 :=
  reorder_neon 4 (fun x => [member 4 16 2 x; member 4 16 1 x; member 4 16 0 x]).
(** neon.rs:745-772 *)
Definition rgb_to_bgra_neon : kernel_1_1 :=
  reorder_neon 3 (fun x => [member 3 16 2 x; member 3 16 1 x; member 3 16 0 x;
                            repeat DEFAULT_ALPHA 16]).

(** ** The converters *)

(** neon.rs:599-680 *)
Definition neon_rgb_i444 (s : sampler) (depth : Z) (c : colorimetry) : converter :=
  rgb_i4xx_w 1 depth
    (hyb_1_3 (fun w => lower_multiple_of_pot w RGB_TO_YUV_WAVES) 1 depth
             (rgb_to_i444_neon s depth c) (rgb_to_i444 s depth c)).
(** neon.rs:512-596 *)
Definition neon_rgb_i420 (s : sampler) (depth : Z) (c : colorimetry) : converter :=
  rgb_i4xx_w 2 depth
    (hyb_1_3 (fun w => lower_multiple_of_pot w RGB_TO_YUV_WAVES) 2 depth
             (rgb_to_i420_neon s depth c) (rgb_to_i420 s depth c)).
(** neon.rs:420-509 *)
Definition neon_rgb_nv12 (s : sampler) (depth : Z) (c : colorimetry) : converter :=
  rgb_nv12_w depth
    (hyb_1_2 (fun w => lower_multiple_of_pot w RGB_TO_YUV_WAVES) depth
             (rgb_to_nv12_neon s depth c) (rgb_to_nv12 s depth c)).
(** neon.rs:839-913 *)
Definition neon_bgr_rgb : converter :=
  rgb_rgb_w 3 3 (hyb_1_1 (fun w => lower_multiple_of_pot w LANE_COUNT) 3 3
                         bgr_to_rgb_neon bgr_to_rgb).
(** neon.rs:915-991 *)
Definition neon_bgra_rgb : converter :=
  rgb_rgb_w 4 3 (hyb_1_1 (fun w => lower_multiple_of_pot w LANE_COUNT) 4 3
                         bgra_to_rgb_neon bgra_to_rgb).
(** neon.rs:993-1069 *)
Definition neon_rgb_bgra : converter :=
  rgb_rgb_w 3 4 (hyb_1_1 (fun w => lower_multiple_of_pot w LANE_COUNT) 3 4
                         rgb_to_bgra_neon rgb_to_bgra).
