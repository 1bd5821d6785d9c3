(** What a caller of the public API has to provide, and what it gets: validity of
    image descriptions, supported conversions, where images have to fit.
    Independent of the model of the code. *)
From Coq Require Import ZArith List Bool.
Import ListNotations.
From Verif Require Import Fmt Spec.
Open Scope Z_scope.

(** Number of planes of each pixel format. *)
Definition valid_num_planes (pf : pixel_format) (n : Z) : Prop :=
  match pf with
  | I444 | I422 | I420 => n = 3
  | Nv12 => n = 1 \/ n = 2
  | _ => n = 1
  end.

(** Dimensions have to be even in the subsampled directions. *)
Definition valid_size (pf : pixel_format) (w h : Z) : Prop :=
  match pf with
  | I422 => w mod 2 = 0
  | I420 | Nv12 => w mod 2 = 0 /\ h mod 2 = 0
  | _ => True
  end.

(** RGB pixel formats go with the RGB colour space, the others with a YCbCr one. *)
Definition valid_colors (pf : pixel_format) (cs : color_space) : Prop :=
  is_rgb pf = true <-> cs = CsRgb.

Definition valid_image (im : image) (w h : Z) : Prop :=
  valid_colors (i_pf im) (i_cs im) /\ valid_num_planes (i_pf im) (i_planes im) /\
  valid_size (i_pf im) w h.

(** The table of README.md:27-35. *)
Definition supported (src dst : pixel_format) : bool :=
  match src, dst with
  | Argb, (I420 | I444 | Nv12) => true
  | Bgr, (I420 | I444 | Nv12 | Rgb) => true
  | Bgra, (I420 | I444 | Nv12 | Rgb) => true
  | I420, (Bgra | Rgba) => true
  | I444, (Bgra | Rgba) => true
  | Nv12, (Bgra | Rgb | Rgba) => true
  | Rgb, Bgra => true
  | _, _ => false
  end.

Definition buf_len (bufs : list (list Z)) (n : nat) : Z := Z.of_nat (length (nth n bufs [])).

(** A plane lies inside of its buffer, with [slack] bytes after its last one. *)
Definition plane_in (slack : Z) (bufs : list (list Z)) (g : geom) : Prop :=
  g_base g + (g_rows g - 1) * g_stride g + g_row g + slack <= buf_len bufs (g_buf g).
Definition image_in (slack : Z) (im : image) (w h : Z) (bufs : list (list Z)) : Prop :=
  Forall (plane_in slack bufs) (image_planes im w h).

(** Rows do not overlap. *)
Definition rows_apart (im : image) (w h : Z) : Prop :=
  Forall (fun g => g_row g <= g_stride g) (image_planes im w h).

(** The image lies inside of its buffers and its rows do not overlap. *)
Definition laid_out (im : image) (w h : Z) (bufs : list (list Z)) : Prop :=
  image_in 0 im w h bufs /\ rows_apart im w h.

(** The buffers are as large as it is documented they have to be: for each plane,
    stride times number of rows. *)
Definition image_fits (im : image) (w h : Z) (bufs : list (list Z)) : Prop :=
  Forall (fun g => g_row g <= g_stride g /\
                   g_base g + g_stride g * g_rows g <= buf_len bufs (g_buf g))
         (image_planes im w h).

(** Enough strides (when given), enough buffers. *)
Definition enough_planes (im : image) (bufs : list (list Z)) : Prop :=
  i_planes im <= Z.of_nat (length bufs) /\
  match i_strides im with None => True | Some l => i_planes im <= Z.of_nat (length l) end.

(** Strides are machine integers (below [lim]). *)
Definition strides_below (lim : Z) (im : image) : Prop :=
  match i_strides im with None => True | Some l => Forall (fun s => 0 <= s < lim) l end.

(** Buffers contain bytes and are not longer than [lim]. *)
Definition buffers_ok (lim : Z) (bufs : list (list Z)) : Prop :=
  Forall (fun b => Z.of_nat (length b) <= lim /\ Forall (fun x => 0 <= x <= 255) b) bufs.

(** Position [a] of buffer [n] belongs to the image. *)
Definition in_image (im : image) (w h : Z) (n : nat) (a : Z) : Prop :=
  exists g y j, In g (image_planes im w h) /\ n = g_buf g /\ 0 <= y < g_rows g /\ 0 <= j < g_row g /\
                a = g_base g + y * g_stride g + j.

(** [after] is [before] with the image [dst] replaced by the conversion of [src],
    and nothing else changed. *)
Definition converted (A : columns) (src dst : image) (w h : Z)
           (source before after : list (list Z)) : Prop :=
  map (@length Z) after = map (@length Z) before /\
  (forall p g, nth_error (image_planes dst w h) p = Some g ->
     forall y j, 0 <= y < g_rows g -> 0 <= j < g_row g ->
     sample after g y j = expected A src dst w h source p y j) /\
  (forall n a, 0 <= a < buf_len before n -> ~ in_image dst w h n a ->
     nth (Z.to_nat a) (nth n after []) 0 = nth (Z.to_nat a) (nth n before []) 0).

(** A well-formed call: dimensions are u32, strides are usize, buffers are Rust
    slices; [usz] is 2^32 or 2^64. *)
Definition well_formed (usz w h : Z) (src dst : image) (sb db : list (list Z)) : Prop :=
  0 <= w < 2 ^ 32 /\ 0 <= h < 2 ^ 32 /\
  0 <= i_planes src < 2 ^ 32 /\ 0 <= i_planes dst < 2 ^ 32 /\
  strides_below usz src /\ strides_below usz dst /\
  buffers_ok (usz / 2 - 1) sb /\ buffers_ok (usz / 2 - 1) db.

(** A call that follows the documentation: valid descriptions, a supported
    conversion, and buffers of at least stride * rows bytes per plane. *)
Definition documented_call (usz w h : Z) (src dst : image) (sb db : list (list Z)) : Prop :=
  well_formed usz w h src dst sb db /\ 0 < w /\ 0 < h /\
  valid_image src w h /\ valid_image dst w h /\ supported (i_pf src) (i_pf dst) = true /\
  enough_planes src sb /\ enough_planes dst db /\
  image_fits src w h sb /\ image_fits dst w h db.

(** The three samples of pixel (x, y) of an image: (R, G, B) or (Y, Cb, Cr). *)
Definition pixel (im : image) (w h : Z) (bufs : list (list Z)) (x y : Z) : Z * Z * Z :=
  if is_rgb (i_pf im) then rgb_pixel (i_pf im) (image_planes im w h) bufs x y
  else ycc_pixel (i_pf im) (image_planes im w h) bufs x y.

(** Plane number [p] of an image. *)
Definition plane_of (im : image) (w h : Z) (p : nat) : geom := nth_plane (image_planes im w h) p.

(** Byte [j] of row [y] of plane [p] of an image of format [pf] is computed from
    pixel (px, py): its own pixel, or one of the four of its 2x2 block. *)
Definition covers (pf : pixel_format) (p : nat) (y j px py : Z) : Prop :=
  match pf, p with
  | Argb, _ | Bgra, _ | Rgba, _ | Bgr, _ | Rgb, _ => px = j / bytes_per_pixel pf /\ py = y
  | _, O => px = j /\ py = y
  | I444, _ => px = j /\ py = y
  | I420, _ => px / 2 = j /\ py / 2 = y
  | Nv12, _ => px / 2 = j / 2 /\ py / 2 = y
  | I422, _ => px / 2 = j /\ py = y
  end.

(** Size of each buffer as documented: stride times number of rows, for each plane of
    the buffer. *)
Definition documented_sizes (im : image) (w h : Z) : list Z :=
  map (fun n => fold_right Z.add 0
                  (map (fun g => g_stride g * g_rows g)
                       (filter (fun g => Nat.eqb (g_buf g) n) (image_planes im w h))))
      (seq 0 (Z.to_nat (i_planes im))).

(** The strides given are those of the planes, no more, and one-plane NV12 is without
    row padding. *)
Definition plain_strides (im : image) (w : Z) : Prop :=
  (match i_strides im with None => True | Some l => Z.of_nat (length l) = i_planes im end) /\
  (i_pf im = Nv12 -> i_planes im = 1 -> eff_stride (i_strides im) 0 w = w).
