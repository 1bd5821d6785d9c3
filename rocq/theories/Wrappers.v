(** Model of the validating wrappers around the conversion kernels:
    src/convert_image/x86.rs:980-1571, sse2.rs:915-1654, avx2.rs:1460-2290,
    neon.rs:420-1069.

    Up to the call of the kernel(s) the four files contain the same text for
    each of the nine wrappers (compared with a line diff), so the checks are
    modelled once, with the kernel part as a parameter.  The const generic
    DEPTH is an argument. *)
From Coq Require Import ZArith List Bool.
Import ListNotations.
From Verif Require Import Base Common Scalar.
Open Scope Z_scope.

(** lib.rs:375-376 [ConvertDispatcher]. *)
Definition converter :=
  Z -> Z -> Z -> arr Z -> arr slice -> Z -> arr Z -> arr slice -> M bool.

(** Kernel shapes: the arguments the wrappers pass to the kernels. *)
Definition kernel_1_2 := Z -> Z -> Z -> slice -> Z * Z -> slice * slice -> M unit.
Definition kernel_1_3 := Z -> Z -> Z -> slice -> Z * Z * Z -> slice * slice * slice -> M unit.
Definition kernel_2_1 := Z -> Z -> Z * Z -> slice * slice -> Z -> slice -> M unit.
Definition kernel_3_1 := Z -> Z -> Z * Z * Z -> slice * slice * slice -> Z -> slice -> M unit.
Definition kernel_1_1 := Z -> Z -> Z -> slice -> Z -> slice -> M unit.

(** One call [out_of_bounds(len, stride, height - 1, row)] as written at the call
    sites; [height - 1] is evaluated as part of the call. *)
Definition oob_call (len stride height row : Z) : M bool :=
  hm1 <- usub height 1 ;; out_of_bounds len stride hm1 row.

(** x86.rs:980-1050, sse2.rs:915-1016, avx2.rs:1460-1569. *)
Definition nv12_rgb_w (depth : Z) (k : kernel_2_1) : converter :=
  fun width height last_src_plane src_strides src_buffers _ dst_strides dst_buffers =>
  if (width =? 0) || (height =? 0) then ret true
  else if (alen src_strides <=? last_src_plane) || (alen src_buffers <=? last_src_plane)
          || (alen dst_strides =? 0) || (alen dst_buffers =? 0) then ret false
  else
    let w := width in
    let h := height in
    let ch := h / 2 in
    rgb_stride <- umul depth w ;;
    s0 <- aidx src_strides 0 ;; s1 <- aidx src_strides last_src_plane ;;
    let ss0 := compute_stride s0 w in
    let ss1 := compute_stride s1 w in
    d0 <- aidx dst_strides 0 ;;
    let dst_stride := compute_stride d0 rgb_stride in
    b0 <- aidx src_buffers 0 ;; b1 <- aidx src_buffers last_src_plane ;;
    planes <- (if last_src_plane =? 0 then
                 n <- umul ss0 h ;;
                 if s_len b0 <? n then ret None
                 else n' <- umul ss0 h ;; p <- split_at b0 n' ;; ret (Some p)
               else ret (Some (b0, b1))) ;;
    match planes with
    | None => ret false
    | Some (yb, uvb) =>
        db <- aidx dst_buffers 0 ;;
        bad <- orM (oob_call (s_len yb) ss0 h w)
                   (orM (oob_call (s_len uvb) ss1 ch w)
                        (oob_call (s_len db) dst_stride h rgb_stride)) ;;
        if bad then ret false
        else k w h (ss0, ss1) (yb, uvb) dst_stride db ;; ret true
    end.

(** x86.rs:1053-1107 ([cw = w / 2], [ch = h / 2]), 1110-1161 ([cw = w], [ch = h]);
    sse2.rs:1019-1106, 1109-1192; avx2.rs:1572-1659, 1662-1745: the texts of
    i420_rgb and i444_rgb only differ in the chroma dimensions, given here by
    [sub] (2 or 1). *)
Definition i4xx_rgb_w (sub depth : Z) (k : kernel_3_1) : converter :=
  fun width height _ src_strides src_buffers _ dst_strides dst_buffers =>
  if (width =? 0) || (height =? 0) then ret true
  else if (alen src_strides <? 3) || (alen src_buffers <? 3)
          || (alen dst_strides =? 0) || (alen dst_buffers =? 0) then ret false
  else
    let w := width in
    let h := height in
    let cw := w / sub in
    let ch := h / sub in
    rgb_stride <- umul depth w ;;
    s0 <- aidx src_strides 0 ;; s1 <- aidx src_strides 1 ;; s2 <- aidx src_strides 2 ;;
    let ss0 := compute_stride s0 w in
    let ss1 := compute_stride s1 cw in
    let ss2 := compute_stride s2 cw in
    d0 <- aidx dst_strides 0 ;;
    let dst_stride := compute_stride d0 rgb_stride in
    b0 <- aidx src_buffers 0 ;; b1 <- aidx src_buffers 1 ;; b2 <- aidx src_buffers 2 ;;
    db <- aidx dst_buffers 0 ;;
    bad <- orM (oob_call (s_len b0) ss0 h w)
               (orM (oob_call (s_len b1) ss1 ch cw)
                    (orM (oob_call (s_len b2) ss2 ch cw)
                         (oob_call (s_len db) dst_stride h rgb_stride))) ;;
    if bad then ret false
    else k w h (ss0, ss1, ss2) (b0, b1, b2) dst_stride db ;; ret true.

(** x86.rs:1164-1224 ([sub = 1]), 1227-1289 ([sub = 2]); sse2.rs:1382-1467,
    1291-1379; avx2.rs:1935-2020, 1844-1932; neon.rs:599-680, 512-596. *)
Definition rgb_i4xx_w (sub depth : Z) (k : kernel_1_3) : converter :=
  fun width height _ src_strides src_buffers _ dst_strides dst_buffers =>
  if (width =? 0) || (height =? 0) then ret true
  else if (alen src_strides =? 0) || (alen src_buffers =? 0)
          || (alen dst_strides <? 3) || (alen dst_buffers <? 3) then ret false
  else
    let w := width in
    let h := height in
    let cw := w / sub in
    let ch := h / sub in
    rgb_stride <- umul depth w ;;
    s0 <- aidx src_strides 0 ;;
    let src_stride := compute_stride s0 rgb_stride in
    d0 <- aidx dst_strides 0 ;; d1 <- aidx dst_strides 1 ;; d2 <- aidx dst_strides 2 ;;
    let ds0 := compute_stride d0 w in
    let ds1 := compute_stride d1 cw in
    let ds2 := compute_stride d2 cw in
    sb <- aidx src_buffers 0 ;;
    yb <- aidx dst_buffers 0 ;; ub <- aidx dst_buffers 1 ;; vb <- aidx dst_buffers 2 ;;
    bad <- orM (oob_call (s_len sb) src_stride h rgb_stride)
               (orM (oob_call (s_len yb) ds0 h w)
                    (orM (oob_call (s_len ub) ds1 ch cw)
                         (oob_call (s_len vb) ds2 ch cw))) ;;
    if bad then ret false
    else k w h src_stride sb (ds0, ds1, ds2) (yb, ub, vb) ;; ret true.

(** x86.rs:1292-1360, sse2.rs:1195-1288, avx2.rs:1748-1841, neon.rs:420-509.
    For [last_dst_plane >= 1], [split_at_mut(last_dst_plane)] gives buffers 0 and
    [last_dst_plane]. *)
Definition rgb_nv12_w (depth : Z) (k : kernel_1_2) : converter :=
  fun width height _ src_strides src_buffers last_dst_plane dst_strides dst_buffers =>
  if (width =? 0) || (height =? 0) then ret true
  else if (alen src_strides =? 0) || (alen src_buffers =? 0)
          || (alen dst_strides <=? last_dst_plane) || (alen dst_buffers <=? last_dst_plane)
       then ret false
  else
    let w := width in
    let h := height in
    let ch := h / 2 in
    rgb_stride <- umul depth w ;;
    s0 <- aidx src_strides 0 ;;
    let src_stride := compute_stride s0 rgb_stride in
    d0 <- aidx dst_strides 0 ;; d1 <- aidx dst_strides last_dst_plane ;;
    let ds0 := compute_stride d0 w in
    let ds1 := compute_stride d1 w in
    sb <- aidx src_buffers 0 ;;
    planes <- (if last_dst_plane =? 0 then
                 b <- aidx dst_buffers last_dst_plane ;;
                 n <- umul ds0 h ;;
                 if s_len b <? n then ret None
                 else n' <- umul ds0 h ;; p <- split_at b n' ;; ret (Some p)
               else
                 yb <- aidx dst_buffers 0 ;; uvb <- aidx dst_buffers last_dst_plane ;;
                 ret (Some (yb, uvb))) ;;
    match planes with
    | None => ret false
    | Some (yb, uvb) =>
        bad <- orM (oob_call (s_len sb) src_stride h rgb_stride)
                   (orM (oob_call (s_len yb) ds0 h w)
                        (oob_call (s_len uvb) ds1 ch w)) ;;
        if bad then ret false
        else k w h src_stride sb (ds0, ds1) (yb, uvb) ;; ret true
    end.

(** x86.rs:1427-1474 (rgb_bgra: 3, 4), 1476-1523 (bgra_rgb: 4, 3), 1525-1571 (bgr_rgb:
    3, 3); sse2.rs:1578-1654; avx2.rs:2087-2163, 2165-2214, 2216-2290; neon.rs:993-1069,
    915-991, 839-913. The last argument of [out_of_bounds] is [w], not the row size. *)
Definition rgb_rgb_w (src_depth dst_depth : Z) (k : kernel_1_1) : converter :=
  fun width height _ src_strides src_buffers _ dst_strides dst_buffers =>
  if (width =? 0) || (height =? 0) then ret true
  else if (alen src_strides =? 0) || (alen src_buffers =? 0)
          || (alen dst_strides =? 0) || (alen dst_buffers =? 0) then ret false
  else
    let w := width in
    let h := height in
    s0 <- aidx src_strides 0 ;; sd <- umul src_depth w ;;
    let src_stride := compute_stride s0 sd in
    d0 <- aidx dst_strides 0 ;; dd <- umul dst_depth w ;;
    let dst_stride := compute_stride d0 dd in
    sb <- aidx src_buffers 0 ;; db <- aidx dst_buffers 0 ;;
    bad <- orM (oob_call (s_len sb) src_stride h w)
               (oob_call (s_len db) dst_stride h w) ;;
    if bad then ret false
    else k w h src_stride sb dst_stride db ;; ret true.

(** ** The x86 (scalar) converters: x86.rs:980-1571 *)

(** x86.rs:1036-1047: choice of the kernel by DEPTH. *)
Definition x86_nv12_rgb (c : colorimetry) (depth : Z) (rev : bool) : converter :=
  nv12_rgb_w depth (if depth =? 4 then nv12_to_bgra c rev else nv12_to_rgb c).
(** x86.rs:1053-1107 *)
Definition x86_i420_rgb (c : colorimetry) (depth : Z) (rev : bool) : converter :=
  i4xx_rgb_w 2 depth (i420_to_bgra c rev).
(** x86.rs:1110-1161 *)
Definition x86_i444_rgb (c : colorimetry) (depth : Z) (rev : bool) : converter :=
  i4xx_rgb_w 1 depth (i444_to_bgra c rev).
(** x86.rs:1164-1224 *)
Definition x86_rgb_i444 (s : sampler) (depth : Z) (c : colorimetry) : converter :=
  rgb_i4xx_w 1 depth (rgb_to_i444 s depth c).
(** x86.rs:1227-1289 *)
Definition x86_rgb_i420 (s : sampler) (depth : Z) (c : colorimetry) : converter :=
  rgb_i4xx_w 2 depth (rgb_to_i420 s depth c).
(** x86.rs:1292-1360 *)
Definition x86_rgb_nv12 (s : sampler) (depth : Z) (c : colorimetry) : converter :=
  rgb_nv12_w depth (rgb_to_nv12 s depth c).
(** x86.rs:1427-1474 *)
Definition x86_rgb_bgra : converter := rgb_rgb_w 3 4 rgb_to_bgra.
(** x86.rs:1476-1523 *)
Definition x86_bgra_rgb : converter := rgb_rgb_w 4 3 bgra_to_rgb.
(** x86.rs:1525-1571 *)
Definition x86_bgr_rgb : converter := rgb_rgb_w 3 3 bgr_to_rgb.
