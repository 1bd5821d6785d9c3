(** Model of src/pixel_format.rs and src/color_space.rs. *)
From Coq Require Import ZArith List Bool.
Import ListNotations.
From Verif Require Import Base.
Open Scope Z_scope.

(** src/pixel_format.rs:21-62 [enum PixelFormat] (repr(C), declaration order). *)
Inductive pixel_format := Argb | Bgra | Bgr | Rgba | Rgb | I444 | I422 | I420 | Nv12.

(** [pf as u32], src/pixel_format.rs:21-62. *)
Definition pf_u32 (pf : pixel_format) : Z :=
  match pf with
  | Argb => 0 | Bgra => 1 | Bgr => 2 | Rgba => 3 | Rgb => 4
  | I444 => 5 | I422 => 6 | I420 => 7 | Nv12 => 8
  end.

(** src/color_space.rs:24-42 [enum ColorSpace] (repr(C), declaration order). *)
Inductive color_space := CsRgb | Bt601 | Bt709 | Bt601FR | Bt709FR.

(** [cs as u32], src/color_space.rs:24-42. *)
Definition cs_u32 (cs : color_space) : Z :=
  match cs with
  | CsRgb => 0 | Bt601 => 1 | Bt709 => 2 | Bt601FR => 3 | Bt709FR => 4
  end.

(** src/pixel_format.rs:66-72 [PixelFormat::depth]. *)
Definition pf_depth (pf : pixel_format) : Z :=
  match pf with
  | Argb | Bgra | Rgba => 4
  | Bgr | Rgb => 3
  | _ => 0
  end.

(** src/pixel_format.rs:75-77 [PixelFormat::reversed]. *)
Definition pf_reversed (pf : pixel_format) : bool :=
  match pf with Rgba => true | _ => false end.

(** src/pixel_format.rs:16 *)
Definition MAX_NUMBER_OF_PLANES : Z := 4.
(** src/pixel_format.rs:98 *)
Definition STRIDE_AUTO : Z := 0.
(** src/pixel_format.rs:100 *)
Definition DEFAULT_STRIDES : list Z := [STRIDE_AUTO; STRIDE_AUTO; STRIDE_AUTO; STRIDE_AUTO].

(** src/pixel_format.rs:103-105 *)
Definition make_pf_spec (planes width height : Z) : Z :=
  Z.lor (Z.lor (Z.shiftl height 3) (Z.shiftl width 2)) planes.

(** src/pixel_format.rs:108-110 *)
Definition make_plane_spec (plane0 plane1 plane2 plane3 : Z) : Z :=
  Z.lor (Z.lor (Z.lor (Z.shiftl plane3 18) (Z.shiftl plane2 12)) (Z.shiftl plane1 6)) plane0.

(** src/pixel_format.rs:112 *)
Definition INVALID_PLANE : Z := 32.

(** src/pixel_format.rs:114-124 *)
Definition PF_SPECS : list Z :=
  [ make_pf_spec 0 0 0; make_pf_spec 0 0 0; make_pf_spec 0 0 0;
    make_pf_spec 0 0 0; make_pf_spec 0 0 0; make_pf_spec 2 0 0;
    make_pf_spec 2 1 0; make_pf_spec 2 1 1; make_pf_spec 1 1 1 ].

(** src/pixel_format.rs:126-136 *)
Definition STRIDE_SPECS : list Z :=
  [ make_plane_spec 0 0 0 0;
    make_plane_spec 0 0 0 0;
    make_plane_spec 0 0 0 INVALID_PLANE;
    make_plane_spec 0 0 0 0;
    make_plane_spec 0 0 0 INVALID_PLANE;
    make_plane_spec 0 0 0 INVALID_PLANE;
    make_plane_spec 0 1 1 INVALID_PLANE;
    make_plane_spec 0 1 1 INVALID_PLANE;
    make_plane_spec 0 0 INVALID_PLANE INVALID_PLANE ].

(** src/pixel_format.rs:138-148 *)
Definition HEIGHT_SPECS : list Z :=
  [ make_plane_spec 0 0 0 0;
    make_plane_spec 0 0 0 0;
    make_plane_spec 0 0 0 INVALID_PLANE;
    make_plane_spec 0 0 0 0;
    make_plane_spec 0 0 0 INVALID_PLANE;
    make_plane_spec 0 0 0 INVALID_PLANE;
    make_plane_spec 0 0 0 INVALID_PLANE;
    make_plane_spec 0 1 1 INVALID_PLANE;
    make_plane_spec 0 1 INVALID_PLANE INVALID_PLANE ].

(** src/pixel_format.rs:150-152 *)
Definition get_pf_width (pf : Z) : Z := Z.land (Z.shiftr pf 2) 1.
(** src/pixel_format.rs:154-156 *)
Definition get_pf_height (pf : Z) : Z := Z.shiftr pf 3.
(** src/pixel_format.rs:158-160 *)
Definition get_pf_planes (pf : Z) : Z := Z.land pf 3.

(** src/pixel_format.rs:162-164 *)
Definition get_plane_value (bpp plane : Z) : Z := Z.land (Z.shiftr bpp (6 * plane)) 63.
(** src/pixel_format.rs:166-168 *)
Definition get_plane_mask (bpp plane : Z) : Z :=
  if INVALID_PLANE =? get_plane_value bpp plane then 0 else 1.
(** src/pixel_format.rs:170-172; [u32::wrapping_shr] masks the shift amount to 5 bits. *)
Definition get_plane_spec (dimension bpp plane : Z) : Z :=
  Z.shiftr dimension (Z.land (get_plane_value bpp plane) 31).

(** src/pixel_format.rs:174-188 *)
Definition is_compatible (pixel_format width height last_plane : Z) : M bool :=
  spec <- index PF_SPECS pixel_format ;;
  let planes := get_pf_planes spec in
  let matches_exact := u32 (last_plane - planes) in
  let last_plane := if pixel_format =? pf_u32 Nv12 then last_plane else 1 in
  ret (Z.lor (Z.lor (Z.land width (get_pf_width spec))
                    (Z.land height (get_pf_height spec)))
             (u32 (last_plane * matches_exact)) =? 0).

(** src/pixel_format.rs:206-216: the loop filling the local array [stride],
    one entry ([i] in 0..4).  [i >= strides.len()] is tested before indexing. *)
Definition plane_stride (stride_spec width : Z) (strides : list Z) (i : Z) : M Z :=
  if (zlen strides <=? i) || (nth (Z.to_nat i) strides 0 =? STRIDE_AUTO) then
    umul (get_plane_mask stride_spec i) (get_plane_spec width stride_spec i)
  else ret (nth (Z.to_nat i) strides 0).

(** src/pixel_format.rs:225-232: the loop over [buffers_size[..=last_plane]]
    zipped with the strides; [i] is the enumeration index. *)
Fixpoint fill_sizes (height height_spec : Z) (strides : list Z) (i : Z)
         (buffers_size : list Z) : M (list Z) :=
  match strides, buffers_size with
  | s :: strides', _ :: rest =>
      x <- umul s (get_plane_spec height height_spec i) ;;
      rest' <- fill_sizes height height_spec strides' (i + 1) rest ;;
      ret (x :: rest')
  | _, _ => ret buffers_size
  end.

(** src/pixel_format.rs:190-236. Returns the boolean result and the new
    contents of [buffers_size]. *)
Definition pf_get_buffers_size (pixel_format width height last_plane : Z)
           (strides buffers_size : list Z) : M (bool * list Z) :=
  if (MAX_NUMBER_OF_PLANES <=? last_plane) || (zlen strides <=? last_plane)
     || (zlen buffers_size <=? last_plane)
  then ret (false, buffers_size)
  else
    stride_spec <- index STRIDE_SPECS pixel_format ;;
    s0 <- plane_stride stride_spec width strides 0 ;;
    s1 <- plane_stride stride_spec width strides 1 ;;
    s2 <- plane_stride stride_spec width strides 2 ;;
    s3 <- plane_stride stride_spec width strides 3 ;;
    height_spec <- index HEIGHT_SPECS pixel_format ;;
    if last_plane =? 0 then
      a0 <- umul s0 (get_plane_spec height height_spec 0) ;;
      a1 <- umul s1 (get_plane_spec height height_spec 1) ;;
      a01 <- uadd a0 a1 ;;
      a2 <- umul s2 (get_plane_spec height height_spec 2) ;;
      a3 <- umul s3 (get_plane_spec height height_spec 3) ;;
      a23 <- uadd a2 a3 ;;
      a <- uadd a01 a23 ;;
      ret (true, upd buffers_size 0 a)
    else
      sizes <- fill_sizes height height_spec
                 (firstn (Z.to_nat (last_plane + 1)) [s0; s1; s2; s3]) 0 buffers_size ;;
      ret (true, sizes).

(** src/pixel_format.rs:239-250 *)
Definition are_planes_compatible (pixel_format num_planes : Z) : M bool :=
  let last_plane := u32 (num_planes - 1) in
  spec <- index PF_SPECS pixel_format ;;
  let matches_exact := u32 (last_plane - get_pf_planes spec) in
  let last_plane := if pixel_format =? pf_u32 Nv12 then last_plane else 1 in
  ret (u32 (last_plane * matches_exact) =? 0).
