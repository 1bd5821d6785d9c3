(** Model of src/dispatcher.rs (index arithmetic of the dispatch table). *)
From Coq Require Import ZArith List Bool.
Import ListNotations.
From Verif Require Import Base Fmt.
Open Scope Z_scope.

(** src/dispatcher.rs:116-118 *)
Definition enum_count (lo hi : Z) : Z := hi - lo + 1.
(** src/dispatcher.rs:121-123; [leading_zeros] of a positive u32 [x] is
    [31 - log2 x]. *)
Definition upper_power_of_two (x : Z) : Z := Z.shiftl 1 (32 - (31 - Z.log2 (x - 1))).

(** src/dispatcher.rs:125 *)
Definition LO_RGB_PIXEL_FORMAT : Z := pf_u32 Argb.
(** src/dispatcher.rs:126 *)
Definition HI_RGB_PIXEL_FORMAT : Z := pf_u32 Rgb.
(** src/dispatcher.rs:127 *)
Definition LO_YUV_PIXEL_FORMAT : Z := pf_u32 I444.
(** src/dispatcher.rs:128 *)
Definition HI_YUV_PIXEL_FORMAT : Z := pf_u32 Nv12.
(** src/dispatcher.rs:131 *)
Definition LO_RGB_COLOR_SPACE : Z := cs_u32 CsRgb.
(** src/dispatcher.rs:132 *)
Definition HI_RGB_COLOR_SPACE : Z := cs_u32 CsRgb.
(** src/dispatcher.rs:133 *)
Definition LO_YUV_COLOR_SPACE : Z := cs_u32 Bt601.
(** src/dispatcher.rs:134 *)
Definition HI_YUV_COLOR_SPACE : Z := cs_u32 Bt709FR.

(** src/dispatcher.rs:137 *)
Definition RGB_PIXEL_FORMAT_COUNT := enum_count LO_RGB_PIXEL_FORMAT HI_RGB_PIXEL_FORMAT.
(** src/dispatcher.rs:138 *)
Definition RGB_COLOR_SPACE_COUNT := enum_count LO_RGB_COLOR_SPACE HI_RGB_COLOR_SPACE.
(** src/dispatcher.rs:139 *)
Definition RGB_COUNT := RGB_PIXEL_FORMAT_COUNT * RGB_COLOR_SPACE_COUNT.
(** src/dispatcher.rs:140 *)
Definition YUV_PIXEL_FORMAT_COUNT := enum_count LO_YUV_PIXEL_FORMAT HI_YUV_PIXEL_FORMAT.
(** src/dispatcher.rs:141 *)
Definition YUV_COLOR_SPACE_COUNT := enum_count LO_YUV_COLOR_SPACE HI_YUV_COLOR_SPACE.
(** src/dispatcher.rs:143 *)
Definition ROWS := RGB_COUNT + YUV_PIXEL_FORMAT_COUNT * YUV_COLOR_SPACE_COUNT.
(** src/dispatcher.rs:144 *)
Definition COLUMNS := upper_power_of_two ROWS.

(** src/dispatcher.rs:146-149 *)
Definition select_mode (a b : Z) (cond : bool) : Z :=
  let c := if cond then 1 else 0 in
  c * a + (1 - c) * b.

(** src/dispatcher.rs:151 *)
Definition TABLE_SIZE : Z := ROWS * COLUMNS.

(** src/dispatcher.rs:153-155 *)
Definition get_pixel_format_mode (pixel_format : Z) : bool := pixel_format <=? HI_RGB_PIXEL_FORMAT.
(** src/dispatcher.rs:157-160 *)
Definition get_color_space_mode (color_space : Z) : bool := color_space =? HI_RGB_COLOR_SPACE.

(** src/dispatcher.rs:162-176. The first argument of [select_mode] and the
    result of [select_mode] use non-wrapping u32 arithmetic in Rust; for enum
    values they stay below 2^32, so plain [Z] is used there. *)
Definition get_image_index (pixel_format color_space : Z) (pixel_format_mode : bool) : Z :=
  select_mode
    (RGB_PIXEL_FORMAT_COUNT * (color_space - LO_RGB_COLOR_SPACE)
     + (pixel_format - LO_RGB_PIXEL_FORMAT))
    (u32 (u32 (RGB_COUNT + u32 (YUV_PIXEL_FORMAT_COUNT * u32 (color_space - LO_YUV_COLOR_SPACE)))
          + u32 (pixel_format - LO_YUV_PIXEL_FORMAT)))
    pixel_format_mode.

(** src/dispatcher.rs:178-180 *)
Definition get_index (src_index dst_index : Z) : Z := src_index * COLUMNS + dst_index.

(** src/dispatcher.rs:185-188 *)
Definition is_pixel_format_valid (pixel_format : Z) : bool :=
  u32 (pixel_format - LO_RGB_PIXEL_FORMAT) <=? u32 (HI_YUV_PIXEL_FORMAT - LO_RGB_PIXEL_FORMAT).
(** src/dispatcher.rs:193-196 *)
Definition is_color_space_valid (color_space : Z) : bool :=
  u32 (color_space - LO_RGB_COLOR_SPACE) <=? u32 (HI_YUV_COLOR_SPACE - LO_RGB_COLOR_SPACE).
