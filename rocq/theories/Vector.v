(** What sse2.rs, avx2.rs and neon.rs have in common: the coefficient tables of
    the two x86 files, and the way the wrappers split an image into a left part
    for the vector kernel and a right part for the scalar kernel of x86.rs. *)
From Coq Require Import ZArith List Bool.
Import ListNotations.
From Verif Require Import Base Common Scalar Wrappers Simd.
Open Scope Z_scope.

(** common.rs:25-30 *)
Definition i32x2_to_i32 (x y : Z) : Z :=
  i32 (Z.lor (Z.shiftl (Z.land x 0xFFFF) 16) (Z.land y 0xFFFF)).
(** common.rs:35-41 *)
Definition i32_to_i16 (x : Z) : Z := i16 (Z.land x 0xFFFF).

(** sse2.rs:69-106 and avx2.rs:85-122 [FORWARD_WEIGHTS] (the same text): row [c]. *)
Definition FORWARD_WEIGHTS (c : colorimetry) : list Z :=
  [ i32x2_to_i32 (XG c - SHORT_HALF) (XR c);
    i32x2_to_i32 SHORT_HALF (XB c);
    i32x2_to_i32 (ZG c) (- (YR c + YG c));
    i32x2_to_i32 (YG c) (YR c);
    i32x2_to_i32 0 (- (- (YR c + YG c) + ZG c));
    i32x2_to_i32 0 (- (YR c + YG c));
    match c with C601 | C709 => Y_OFFSET | C601FR | C709FR => FIX16_HALF end ].
(** [weights[i]] *)
Definition fw (c : colorimetry) (i : nat) : Z := nth i (FORWARD_WEIGHTS c) 0.

(** sse2.rs:108-149 and avx2.rs:124-165 [BACKWARD_WEIGHTS] (the same text): row [c]. *)
Definition BACKWARD_WEIGHTS (c : colorimetry) : list Z :=
  map i32_to_i16 [ XXYM c; RCRM c; GCRM c; GCBM c; BCBM c; RN c; GP c; BN c ].
(** [weights[i]] *)
Definition bw (c : colorimetry) (i : nat) : Z := nth i (BACKWARD_WEIGHTS c) 0.

(** ** Vector part and scalar part

    [vp w] is [vector_part]; [v] and [s] below are [vector_part] and [scalar_part].
    [kv] is the vector kernel, [ks] the scalar one. *)

(** sse2.rs:1254-1258, 1344-1348, 1433-1437 and the same lines of avx2.rs: the part of
    the width the RGB to YCbCr vector kernels work on; [waves] is RGB_TO_YUV_WAVES. *)
Definition fwd_vector_part (waves depth w : Z) : Z :=
  if depth =? 3 then (depth * waves) * (w / (depth * waves))
  else lower_multiple_of_pot w waves.

(** RGB to NV12: sse2.rs:1253-1285, avx2.rs:1806-1838, neon.rs:478-506. *)
Definition hyb_1_2 (vp : Z -> Z) (depth : Z) (kv ks : kernel_1_2) : kernel_1_2 :=
  fun w h ss src ds dst =>
  let v := vp w in
  let s := w - v in
  (if 0 <? v then kv v h ss src ds dst else ret tt) ;;
  if 0 <? s then
    sx <- umul v depth ;;
    src' <- slice_from src sx ;;
    y' <- slice_from (fst dst) v ;;
    uv' <- slice_from (snd dst) v ;;
    ks s h ss src' ds (y', uv')
  else ret tt.

(** RGB to I420 ([sub = 2]: [cx = x / 2]) and to I444 ([sub = 1]: [x]):
    sse2.rs:1343-1376, 1432-1464; avx2.rs:1896-1929, 1985-2017; neon.rs:564-593, 649-677. *)
Definition hyb_1_3 (vp : Z -> Z) (sub depth : Z) (kv ks : kernel_1_3) : kernel_1_3 :=
  fun w h ss src ds dst =>
  let v := vp w in
  let s := w - v in
  (if 0 <? v then kv v h ss src ds dst else ret tt) ;;
  if 0 <? s then
    sx <- umul v depth ;;
    src' <- slice_from src sx ;;
    let '(yb, ub, vb) := dst in
    y' <- slice_from yb v ;;
    u' <- slice_from ub (v / sub) ;;
    v' <- slice_from vb (v / sub) ;;
    ks s h ss src' ds (y', u', v')
  else ret tt.

(** NV12 to RGB: sse2.rs:985-1013, avx2.rs:1516-1566. *)
Definition hyb_2_1 (vp : Z -> Z) (depth : Z) (kv ks : kernel_2_1) : kernel_2_1 :=
  fun w h ss src ds dst =>
  let v := vp w in
  let s := w - v in
  (if 0 <? v then kv v h ss src ds dst else ret tt) ;;
  if 0 <? s then
    dx <- umul v depth ;;
    y' <- slice_from (fst src) v ;;
    uv' <- slice_from (snd src) v ;;
    dst' <- slice_from dst dx ;;
    ks s h ss (y', uv') ds dst'
  else ret tt.

(** I420 ([sub = 2]: [cx = x / 2]) and I444 ([sub = 1]) to RGB:
    sse2.rs:1070-1103, 1157-1189; avx2.rs:1623-1656, 1710-1742. *)
Definition hyb_3_1 (vp : Z -> Z) (sub depth : Z) (kv ks : kernel_3_1) : kernel_3_1 :=
  fun w h ss src ds dst =>
  let v := vp w in
  let s := w - v in
  (if 0 <? v then kv v h ss src ds dst else ret tt) ;;
  if 0 <? s then
    dx <- umul v depth ;;
    let '(yb, ub, vb) := src in
    y' <- slice_from yb v ;;
    u' <- slice_from ub (v / sub) ;;
    v' <- slice_from vb (v / sub) ;;
    dst' <- slice_from dst dx ;;
    ks s h ss (y', u', v') ds dst'
  else ret tt.

(** RGB reorderings: sse2.rs:1622-1651, avx2.rs:2131-2160, 2259-2287,
    neon.rs:882-910, 959-988, 1037-1066. *)
Definition hyb_1_1 (vp : Z -> Z) (sd dd : Z) (kv ks : kernel_1_1) : kernel_1_1 :=
  fun w h ss src ds dst =>
  let v := vp w in
  let s := w - v in
  (if 0 <? v then kv v h ss src ds dst else ret tt) ;;
  if 0 <? s then
    sx <- umul v sd ;;
    dx <- umul v dd ;;
    src' <- slice_from src sx ;;
    dst' <- slice_from dst dx ;;
    ks s h ss src' ds dst'
  else ret tt.
