(** Model of the scalar conversion kernels of src/convert_image/x86.rs
    (lines 22-976).  The validating wrappers (lines 980-1571) are in
    [Wrappers].

    Conventions. The const generic parameters SAMPLER, DEPTH, COLORIMETRY and
    REVERSED are ordinary arguments. A pointer [p.add(i)] into a buffer is the
    pair (slice, offset). Loop indices such as [2 * x + 1] are exact integers:
    they are at most the width or height, which are u32 values. Everything that
    involves a stride or an offset goes through checked/wrapping usize
    arithmetic, and every sample computation through i32 arithmetic. *)
From Coq Require Import ZArith List Bool.
Import ListNotations.
From Verif Require Import Base Common.
Open Scope Z_scope.

(** x86.rs:23-32 [FORWARD_WEIGHTS], column 6 (the luma offset); columns 0-5 are
    [XR] ... [ZG] of [Common]. *)
Definition YO (c : colorimetry) : Z :=
  match c with C601 | C709 => Y_OFFSET | C601FR | C709FR => FIX16_HALF end.

(** x86.rs:49 [SAMPLER_OFFSETS] *)
Definition sampler_offsets (s : sampler) : Z * Z * Z :=
  match s with S_Argb => (1, 2, 3) | S_Bgra => (2, 1, 0) | S_Bgr => (2, 1, 0) end.

(** x86.rs:67-75. [fix as u32] is the two's complement reinterpretation. *)
Definition fix_to_u8_sat (fix_ frac_bits : Z) : Z :=
  if Z.land fix_ (Z.lnot (Z.shiftl 256 frac_bits - 1)) =? 0
  then u8 (Z.shiftr (u32 fix_) frac_bits)
  else u8 (Z.land (Z.shiftr (u32 fix_) 31 + 255) 255).

(** x86.rs:90-92 *)
Definition mulhi_i32 (a b : Z) : M Z := p <- imul a b ;; ret (Z.shiftr p 8).

(** x86.rs:95-97 *)
Definition unpack_ui8x2_i32 (s : slice) (o : Z) : M (Z * Z) :=
  a <- ld s o ;; b <- ld s (o + 1) ;; ret (a, b).

(** x86.rs:103-110 *)
Definition unpack_ui8x3_i32 (smp : sampler) (s : slice) (o : Z) : M (Z * Z * Z) :=
  let '(o0, o1, o2) := sampler_offsets smp in
  a <- ld s (o + o0) ;; b <- ld s (o + o1) ;; c <- ld s (o + o2) ;; ret (a, b, c).

(** x86.rs:116-118 *)
Definition affine_transform (x y z ax ay az bw : Z) : M Z :=
  p <- imul ax x ;; q <- imul ay y ;; pq <- iadd p q ;;
  r <- imul az z ;; pqr <- iadd pq r ;; iadd pqr bw.

(** x86.rs:121-123 *)
Definition fix_to_i32 (fix_ frac_bits : Z) : Z := Z.shiftr fix_ frac_bits.

(** x86.rs:127-131 *)
Definition pack_i32x2 (s : slice) (o x y : Z) : M unit :=
  st s o (u8 x) ;; st s (o + 1) (u8 y).

(** x86.rs:135-146 *)
Definition pack_ui8x3 (reversed : bool) (s : slice) (o x y z : Z) : M unit :=
  (if reversed then st s o z ;; st s (o + 2) x
   else st s o x ;; st s (o + 2) z) ;;
  st s (o + 1) y ;; st s (o + 3) DEFAULT_ALPHA.

(** x86.rs:149-153 *)
Definition pack_rgb (s : slice) (o x y z : Z) : M unit :=
  st s o x ;; st s (o + 1) y ;; st s (o + 2) z.

(** The chroma weights [yb = -(yr + yg)], [zb = -(yb + zg)] computed at the head
    of every forward kernel: x86.rs:175-176, 261-262, 352-353. *)
Definition fwd_yb (c : colorimetry) : M Z := s <- iadd (YR c) (YG c) ;; ineg s.
(** x86.rs:176, 262, 353 *)
Definition fwd_zb (c : colorimetry) (yb : Z) : M Z := s <- iadd yb (ZG c) ;; ineg s.

(** x86.rs:189-231 and 275-317: the part of one 2x2 work item shared textually by
    rgb_to_nv12 and rgb_to_i420. Writes the four luma samples and returns the
    sums (sr, sg, sb). *)
Definition fwd_luma_2x2 (smp : sampler) (depth : Z) (c : colorimetry)
           (src : slice) (src_stride : Z) (ybuf : slice) (y_stride x y : Z) : M (Z * Z * Z) :=
  let xr := XR c in let xg := XG c in let xb := XB c in let yo := YO c in
  i00 <- wg_index (2 * x) (2 * y) depth src_stride ;;
  '(r00, g00, b00) <- unpack_ui8x3_i32 smp src i00 ;;
  i10 <- wg_index (2 * x + 1) (2 * y) depth src_stride ;;
  '(r10, g10, b10) <- unpack_ui8x3_i32 smp src i10 ;;
  o0 <- wg_index (2 * x) (2 * y) 1 y_stride ;;
  y00 <- affine_transform r00 g00 b00 xr xg xb yo ;;
  y10 <- affine_transform r10 g10 b10 xr xg xb yo ;;
  pack_i32x2 ybuf o0 (fix_to_i32 y00 FIX16) (fix_to_i32 y10 FIX16) ;;
  i01 <- wg_index (2 * x) (2 * y + 1) depth src_stride ;;
  '(r01, g01, b01) <- unpack_ui8x3_i32 smp src i01 ;;
  i11 <- wg_index (2 * x + 1) (2 * y + 1) depth src_stride ;;
  '(r11, g11, b11) <- unpack_ui8x3_i32 smp src i11 ;;
  o1 <- wg_index (2 * x) (2 * y + 1) 1 y_stride ;;
  y01 <- affine_transform r01 g01 b01 xr xg xb yo ;;
  y11 <- affine_transform r11 g11 b11 xr xg xb yo ;;
  pack_i32x2 ybuf o1 (fix_to_i32 y01 FIX16) (fix_to_i32 y11 FIX16) ;;
  ra <- iadd r00 r10 ;; rb <- iadd r01 r11 ;; sr <- iadd ra rb ;;
  ga <- iadd g00 g10 ;; gb <- iadd g01 g11 ;; sg <- iadd ga gb ;;
  ba <- iadd b00 b10 ;; bb <- iadd b01 b11 ;; sb <- iadd ba bb ;;
  ret (sr, sg, sb).

(** x86.rs:157-240 *)
Definition rgb_to_nv12 (smp : sampler) (depth : Z) (c : colorimetry)
           (width height src_stride : Z) (src : slice)
           (dst_strides : Z * Z) (dst : slice * slice) : M unit :=
  let '(y_stride, uv_stride) := dst_strides in
  let '(ybuf, uvbuf) := dst in
  yb <- fwd_yb c ;;
  zb <- fwd_zb c yb ;;
  let co := FIX18_C_HALF + (FIX18_HALF - 1) in
  for_ (height / 2) (fun y => for_ (width / 2) (fun x =>
    '(sr, sg, sb) <- fwd_luma_2x2 smp depth c src src_stride ybuf y_stride x y ;;
    o <- wg_index x y 2 uv_stride ;;
    u <- affine_transform sr sg sb (YR c) (YG c) yb co ;;
    v <- affine_transform sr sg sb yb (ZG c) zb co ;;
    pack_i32x2 uvbuf o (fix_to_i32 u FIX18) (fix_to_i32 v FIX18))).

(** x86.rs:243-331 *)
Definition rgb_to_i420 (smp : sampler) (depth : Z) (c : colorimetry)
           (width height src_stride : Z) (src : slice)
           (dst_strides : Z * Z * Z) (dst : slice * slice * slice) : M unit :=
  let '(y_stride, u_stride, v_stride) := dst_strides in
  let '(ybuf, ubuf, vbuf) := dst in
  yb <- fwd_yb c ;;
  zb <- fwd_zb c yb ;;
  let co := FIX18_C_HALF + (FIX18_HALF - 1) in
  for_ (height / 2) (fun y => for_ (width / 2) (fun x =>
    '(sr, sg, sb) <- fwd_luma_2x2 smp depth c src src_stride ybuf y_stride x y ;;
    ou <- wg_index x y 1 u_stride ;;
    ov <- wg_index x y 1 v_stride ;;
    u <- affine_transform sr sg sb (YR c) (YG c) yb co ;;
    st ubuf ou (u8 (fix_to_i32 u FIX18)) ;;
    v <- affine_transform sr sg sb yb (ZG c) zb co ;;
    st vbuf ov (u8 (fix_to_i32 v FIX18)))).

(** x86.rs:334-381 *)
Definition rgb_to_i444 (smp : sampler) (depth : Z) (c : colorimetry)
           (width height src_stride : Z) (src : slice)
           (dst_strides : Z * Z * Z) (dst : slice * slice * slice) : M unit :=
  let '(y_stride, u_stride, v_stride) := dst_strides in
  let '(ybuf, ubuf, vbuf) := dst in
  yb <- fwd_yb c ;;
  zb <- fwd_zb c yb ;;
  let co := FIX16_C_HALF + (FIX16_HALF - 1) in
  for_ height (fun y => for_ width (fun x =>
    i <- wg_index x y depth src_stride ;;
    '(r, g, b) <- unpack_ui8x3_i32 smp src i ;;
    oy <- wg_index x y 1 y_stride ;;
    ou <- wg_index x y 1 u_stride ;;
    ov <- wg_index x y 1 v_stride ;;
    l <- affine_transform r g b (XR c) (XG c) (XB c) (YO c) ;;
    st ybuf oy (u8 (fix_to_i32 l FIX16)) ;;
    u <- affine_transform r g b (YR c) (YG c) yb co ;;
    st ubuf ou (u8 (fix_to_i32 u FIX16)) ;;
    v <- affine_transform r g b yb (ZG c) zb co ;;
    st vbuf ov (u8 (fix_to_i32 v FIX16)))).

(** x86.rs:426-431, 513-515, 595-597, 675-677: the chroma terms (sr, sg, sb) of
    every backward kernel. *)
Definition bwd_chroma (c : colorimetry) (cb cr : Z) : M (Z * Z * Z) :=
  a <- mulhi_i32 cr (RCRM c) ;; sr <- isub a (RN c) ;;
  p <- mulhi_i32 cb (GCBM c) ;; np <- ineg p ;;
  q <- mulhi_i32 cr (GCRM c) ;; pq <- isub np q ;; sg <- iadd pq (GP c) ;;
  e <- mulhi_i32 cb (BCBM c) ;; sb <- isub e (BN c) ;;
  ret (sr, sg, sb).

(** x86.rs:438-446 and similar: one output pixel of the BGRA/RGBA kernels. *)
Definition bwd_pixel4 (reversed : bool) (dst : slice) (o sy sr sg sb : Z) : M unit :=
  b <- iadd sy sb ;; g <- iadd sy sg ;; r <- iadd sy sr ;;
  pack_ui8x3 reversed dst o (fix_to_u8_sat b FIX6) (fix_to_u8_sat g FIX6) (fix_to_u8_sat r FIX6).

(** x86.rs:521-526 and similar: one output pixel of the RGB kernel. *)
Definition bwd_pixel3 (dst : slice) (o sy sr sg sb : Z) : M unit :=
  r <- iadd sy sr ;; g <- iadd sy sg ;; b <- iadd sy sb ;;
  pack_rgb dst o (fix_to_u8_sat r FIX6) (fix_to_u8_sat g FIX6) (fix_to_u8_sat b FIX6).

(** x86.rs:433-475, 517-554, 599-635: the 2x2 luma work item shared textually by
    nv12_to_bgra, nv12_to_rgb and i420_to_bgra; [px] is the pixel writer. *)
Definition bwd_luma_2x2 (px : slice -> Z -> Z -> Z -> Z -> Z -> M unit) (depth : Z)
           (c : colorimetry) (ybuf : slice) (y_stride : Z) (dst : slice) (dst_stride : Z)
           (x y sr sg sb : Z) : M unit :=
  i0 <- wg_index (2 * x) (2 * y) 1 y_stride ;;
  '(y00, y10) <- unpack_ui8x2_i32 ybuf i0 ;;
  sy00 <- mulhi_i32 y00 (XXYM c) ;;
  o00 <- wg_index (2 * x) (2 * y) depth dst_stride ;;
  px dst o00 sy00 sr sg sb ;;
  sy10 <- mulhi_i32 y10 (XXYM c) ;;
  o10 <- wg_index (2 * x + 1) (2 * y) depth dst_stride ;;
  px dst o10 sy10 sr sg sb ;;
  i1 <- wg_index (2 * x) (2 * y + 1) 1 y_stride ;;
  '(y01, y11) <- unpack_ui8x2_i32 ybuf i1 ;;
  sy01 <- mulhi_i32 y01 (XXYM c) ;;
  o01 <- wg_index (2 * x) (2 * y + 1) depth dst_stride ;;
  px dst o01 sy01 sr sg sb ;;
  sy11 <- mulhi_i32 y11 (XXYM c) ;;
  o11 <- wg_index (2 * x + 1) (2 * y + 1) depth dst_stride ;;
  px dst o11 sy11 sr sg sb.

(** x86.rs:384-477 *)
Definition nv12_to_bgra (c : colorimetry) (reversed : bool) (width height : Z)
           (src_strides : Z * Z) (src : slice * slice) (dst_stride : Z) (dst : slice) : M unit :=
  let '(y_stride, uv_stride) := src_strides in
  let '(ybuf, uvbuf) := src in
  for_ (height / 2) (fun y => for_ (width / 2) (fun x =>
    i <- wg_index x y 2 uv_stride ;;
    '(cb, cr) <- unpack_ui8x2_i32 uvbuf i ;;
    '(sr, sg, sb) <- bwd_chroma c cb cr ;;
    bwd_luma_2x2 (bwd_pixel4 reversed) 4 c ybuf y_stride dst dst_stride x y sr sg sb)).

(** x86.rs:480-557 *)
Definition nv12_to_rgb (c : colorimetry) (width height : Z)
           (src_strides : Z * Z) (src : slice * slice) (dst_stride : Z) (dst : slice) : M unit :=
  let '(y_stride, uv_stride) := src_strides in
  let '(ybuf, uvbuf) := src in
  for_ (height / 2) (fun y => for_ (width / 2) (fun x =>
    i <- wg_index x y 2 uv_stride ;;
    '(cb, cr) <- unpack_ui8x2_i32 uvbuf i ;;
    '(sr, sg, sb) <- bwd_chroma c cb cr ;;
    bwd_luma_2x2 bwd_pixel3 3 c ybuf y_stride dst dst_stride x y sr sg sb)).

(** x86.rs:560-639 *)
Definition i420_to_bgra (c : colorimetry) (reversed : bool) (width height : Z)
           (src_strides : Z * Z * Z) (src : slice * slice * slice)
           (dst_stride : Z) (dst : slice) : M unit :=
  let '(y_stride, u_stride, v_stride) := src_strides in
  let '(ybuf, ubuf, vbuf) := src in
  for_ (height / 2) (fun y => for_ (width / 2) (fun x =>
    iu <- wg_index x y 1 u_stride ;; cb <- ld ubuf iu ;;
    iv <- wg_index x y 1 v_stride ;; cr <- ld vbuf iv ;;
    '(sr, sg, sb) <- bwd_chroma c cb cr ;;
    bwd_luma_2x2 (bwd_pixel4 reversed) 4 c ybuf y_stride dst dst_stride x y sr sg sb)).

(** x86.rs:642-689 *)
Definition i444_to_bgra (c : colorimetry) (reversed : bool) (width height : Z)
           (src_strides : Z * Z * Z) (src : slice * slice * slice)
           (dst_stride : Z) (dst : slice) : M unit :=
  let '(y_stride, u_stride, v_stride) := src_strides in
  let '(ybuf, ubuf, vbuf) := src in
  for_ height (fun y => for_ width (fun x =>
    iy <- wg_index x y 1 y_stride ;; l <- ld ybuf iy ;;
    iu <- wg_index x y 1 u_stride ;; cb <- ld ubuf iu ;;
    iv <- wg_index x y 1 v_stride ;; cr <- ld vbuf iv ;;
    '(sr, sg, sb) <- bwd_chroma c cb cr ;;
    sl <- mulhi_i32 l (XXYM c) ;;
    o <- wg_index x y 4 dst_stride ;;
    bwd_pixel4 reversed dst o sl sr sg sb)).

(** x86.rs:761-762, 766-777: [((rgb >> 16) & LOW_MASK | (rgb << 40) & HIGH_MASK | ALPHA_MASK).swap_bytes()]. *)
Definition rgb_to_bgra_word64 (rgb : Z) : Z :=
  swap_bytes64
    (Z.lor (Z.lor (Z.land (Z.shiftr rgb 16) 0x00000000FFFFFFFF)
                  (Z.land (u64 (Z.shiftl rgb 40)) 0xFFFFFFFF00000000))
           0x000000FF000000FF).

(** x86.rs:794: [((rgb << 8) | 0xFF).swap_bytes()] on u32. *)
Definition rgb_to_bgra_word32 (rgb : Z) : Z :=
  swap_bytes32 (Z.lor (u32 (Z.shiftl rgb 8)) 0xFF).

(** x86.rs:749-783: one iteration of the 8-pixel loop; the carried variables
    are (x, src_offset, dst_offset). *)
Definition rgb_to_bgra_step8 (src dst : slice) (st_ : Z * Z * Z) : M (Z * Z * Z) :=
  let '(x, so, do_) := st_ in
  rgb0 <- ld_u64 src so ;;
  so6 <- uadd so 6 ;; rgb1 <- ld_u64 src so6 ;;
  so12 <- uadd so 12 ;; rgb2 <- ld_u64 src so12 ;;
  so18 <- uadd so 18 ;; rgb3 <- ld_u64 src so18 ;;
  st_u64 dst do_ (rgb_to_bgra_word64 rgb0) ;;
  st_u64 dst (do_ + 8) (rgb_to_bgra_word64 rgb1) ;;
  st_u64 dst (do_ + 16) (rgb_to_bgra_word64 rgb2) ;;
  st_u64 dst (do_ + 24) (rgb_to_bgra_word64 rgb3) ;;
  x' <- uadd x 8 ;; so' <- uadd so 24 ;; do' <- uadd do_ 32 ;;
  ret (x', so', do').

(** x86.rs:788-799: one iteration of the single pixel loop. *)
Definition rgb_to_bgra_step1 (src dst : slice) (st_ : Z * Z * Z) : M (Z * Z * Z) :=
  let '(x, so, do_) := st_ in
  rgb <- ld_u32 src so ;;
  st_u32 dst do_ (rgb_to_bgra_word32 rgb) ;;
  x' <- uadd x 1 ;; so' <- uadd so 3 ;; do' <- uadd do_ 4 ;;
  ret (x', so', do').

(** x86.rs:804-812: the byte-wise copy of the last pixel. *)
Definition rgb_to_bgra_last (src dst : slice) (width : Z) (st_ : Z * Z * Z) : M (Z * Z) :=
  let '(x, so, do_) := st_ in
  if x <? width then
    i2 <- uadd so 2 ;; c2 <- ld src i2 ;; st dst do_ c2 ;;
    i1 <- uadd so 1 ;; c1 <- ld src i1 ;; o1 <- uadd do_ 1 ;; st dst o1 c1 ;;
    c0 <- ld src so ;; o2 <- uadd do_ 2 ;; st dst o2 c0 ;;
    o3 <- uadd do_ 3 ;; st dst o3 0xFF ;;
    so' <- uadd so 3 ;; do' <- uadd do_ 4 ;; ret (so', do')
  else ret (so, do_).

(** x86.rs:716-815: one line; the carried variables are (y, src_offset, dst_offset). *)
Definition rgb_to_bgra_line (width height : Z) (src_diff dst_diff : Z) (src dst : slice)
           (st_ : Z * Z * Z) : M (Z * Z * Z) :=
  let '(y, so, do_) := st_ in
  hm1 <- usub height 1 ;;
  let is_last_line := y =? hm1 in
  single <- (if is_last_line || (src_diff <? 1) then usub width 1 else ret width) ;;
  multi <- (if is_last_line || ((8 * (width / 8) =? width) && (src_diff <? 2))
            then wm1 <- usub width 1 ;; ret (8 * (wm1 / 8))
            else ret (8 * (width / 8))) ;;
  (* [(0..multi).step_by(8)] has [ceil(multi / 8)] items *)
  s1 <- loop (Z.to_nat ((multi + 7) / 8)) (0, so, do_) (rgb_to_bgra_step8 src dst) ;;
  (* [while x < single], x being incremented by one *)
  s2 <- loop (Z.to_nat (single - fst (fst s1))) s1 (rgb_to_bgra_step1 src dst) ;;
  '(so2, do2) <- rgb_to_bgra_last src dst width s2 ;;
  so' <- uadd so2 src_diff ;; do' <- uadd do2 dst_diff ;;
  ret (y + 1, so', do').

(** x86.rs:692-818 *)
Definition rgb_to_bgra (width height src_stride : Z) (src : slice)
           (dst_stride : Z) (dst : slice) : M unit :=
  sw <- umul 3 width ;; src_diff <- usub src_stride sw ;;
  dw <- umul 4 width ;; dst_diff <- usub dst_stride dw ;;
  loop (Z.to_nat height) (0, 0, 0) (rgb_to_bgra_line width height src_diff dst_diff src dst) ;;
  ret tt.

(** x86.rs:855-878: the three output words of one 8-pixel step of bgr_to_rgb. *)
Definition bgr_to_rgb_words (bgr0 bgr1 bgr2 : Z) : Z * Z * Z :=
  let s0 := swap_bytes64 bgr0 in
  let s1 := swap_bytes64 bgr1 in
  let s2 := swap_bytes64 bgr2 in
  let rgb0 := Z.lor (Z.lor (Z.lor (Z.shiftr s0 40)
                                  (Z.land (u64 (Z.shiftl s0 8)) 0x0000FFFFFF000000))
                           (u64 (Z.shiftl s0 56)))
                    (Z.shiftr (Z.land s1 0xFF00000000000000) 8) in
  let rgb1 := Z.lor (Z.lor (Z.lor (Z.land (Z.shiftr s1 24) 0xFFFFFF00)
                                  (Z.land (u64 (Z.shiftl s1 24)) 0x00FFFFFF00000000))
                           (u64 (Z.shiftl (Z.land s2 0x00FF000000000000) 8)))
                    (Z.shiftr (Z.land s0 0xFF00) 8) in
  let rgb2 := Z.lor (Z.lor (Z.lor (u64 (Z.shiftl (Z.land s2 0xFFFFFF) 40))
                                  (Z.land (Z.shiftr s2 8) 0xFFFFFF0000))
                           (Z.shiftr s2 56))
                    (u64 (Z.shiftl (Z.land s1 0xFF) 8)) in
  (rgb0, rgb1, rgb2).

(** x86.rs:844-887: one 8-pixel step; carried variables (y, src_offset, dst_offset). *)
Definition bgr_to_rgb_step8 (src dst : slice) (st_ : Z * Z * Z) : M (Z * Z * Z) :=
  let '(y, so, do_) := st_ in
  bgr0 <- ld_u64 src so ;;
  bgr1 <- ld_u64 src (so + 8) ;;
  bgr2 <- ld_u64 src (so + 16) ;;
  let '(rgb0, rgb1, rgb2) := bgr_to_rgb_words bgr0 bgr1 bgr2 in
  st_u64 dst do_ rgb0 ;;
  st_u64 dst (do_ + 8) rgb1 ;;
  st_u64 dst (do_ + 16) rgb2 ;;
  so' <- uadd so 24 ;; do' <- uadd do_ 24 ;; y' <- uadd y 8 ;;
  ret (y', so', do').

(** x86.rs:891-897 and 966-972: one pixel copied byte by byte with the first and
    third component exchanged; [sd] and [dd] are the pixel sizes. *)
Definition swap_copy_step1 (sd dd : Z) (src dst : slice) (st_ : Z * Z * Z) : M (Z * Z * Z) :=
  let '(y, so, do_) := st_ in
  i2 <- uadd so 2 ;; c2 <- ld src i2 ;; st dst do_ c2 ;;
  i1 <- uadd so 1 ;; c1 <- ld src i1 ;; o1 <- uadd do_ 1 ;; st dst o1 c1 ;;
  c0 <- ld src so ;; o2 <- uadd do_ 2 ;; st dst o2 c0 ;;
  so' <- uadd so sd ;; do' <- uadd do_ dd ;; y' <- uadd y 1 ;;
  ret (y', so', do').

(** x86.rs:821-901. The two [while] loops have as many iterations as written. *)
Definition bgr_to_rgb (width height src_stride : Z) (src : slice)
           (dst_stride : Z) (dst : slice) : M unit :=
  let limit := lower_multiple_of_pot width 8 in
  for_ height (fun i =>
    so <- umul src_stride i ;;
    do_ <- umul dst_stride i ;;
    s1 <- loop (Z.to_nat ((limit + 7) / 8)) (0, so, do_) (bgr_to_rgb_step8 src dst) ;;
    loop (Z.to_nat (width - fst (fst s1))) s1 (swap_copy_step1 3 3 src dst) ;;
    ret tt).

(** x86.rs:945-952: [((bgra << 40) & HIGH_MASK | (bgra >> 16) & LOW_MASK).swap_bytes()]. *)
Definition bgra_to_rgb_word (bgra : Z) : Z :=
  swap_bytes64 (Z.lor (Z.land (u64 (Z.shiftl bgra 40)) 0xFFFFFF0000000000)
                      (Z.land (Z.shiftr bgra 16) 0x000000FFFFFF0000)).

(** x86.rs:932-962: one 8-pixel step. *)
Definition bgra_to_rgb_step8 (src dst : slice) (st_ : Z * Z * Z) : M (Z * Z * Z) :=
  let '(y, so, do_) := st_ in
  bgra0 <- ld_u64 src so ;;
  bgra1 <- ld_u64 src (so + 8) ;;
  bgra2 <- ld_u64 src (so + 16) ;;
  bgra3 <- ld_u64 src (so + 24) ;;
  let rgb0 := bgra_to_rgb_word bgra0 in
  let rgb1 := bgra_to_rgb_word bgra1 in
  let rgb2 := bgra_to_rgb_word bgra2 in
  let rgb3 := bgra_to_rgb_word bgra3 in
  st_u64 dst do_ (Z.lor (u64 (Z.shiftl rgb1 48)) rgb0) ;;
  st_u64 dst (do_ + 8) (Z.lor (Z.shiftr rgb1 16) (u64 (Z.shiftl rgb2 32))) ;;
  st_u64 dst (do_ + 16) (Z.lor (Z.shiftr rgb2 32) (u64 (Z.shiftl rgb3 16))) ;;
  so' <- uadd so 32 ;; do' <- uadd do_ 24 ;; y' <- uadd y 8 ;;
  ret (y', so', do').

(** x86.rs:904-976 *)
Definition bgra_to_rgb (width height src_stride : Z) (src : slice)
           (dst_stride : Z) (dst : slice) : M unit :=
  sw <- umul 4 width ;; src_diff <- usub src_stride sw ;;
  dw <- umul 3 width ;; dst_diff <- usub dst_stride dw ;;
  let limit := lower_multiple_of_pot width 8 in
  for_ height (fun i =>
    a <- umul 4 width ;; ss <- uadd a src_diff ;; so <- umul ss i ;;
    b <- umul 3 width ;; ds <- uadd b dst_diff ;; do_ <- umul ds i ;;
    s1 <- loop (Z.to_nat ((limit + 7) / 8)) (0, so, do_) (bgra_to_rgb_step8 src dst) ;;
    loop (Z.to_nat (width - fst (fst s1))) s1 (swap_copy_step1 4 3 src dst) ;;
    ret tt).
