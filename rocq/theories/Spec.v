(** Specification of the conversions, independent of the model of the code: it
    only uses the two enumerations of the public API (pixel formats and colour
    spaces).  It says where the samples of an image are in memory and what the
    samples of the converted image have to be. *)
From Coq Require Import ZArith List Bool.
Import ListNotations.
From Verif Require Import Fmt.
Open Scope Z_scope.

(** ** Rounding *)

(** [n / d] rounded to the nearest integer, exact halves upwards. *)
Definition round_up (n d : Z) : Z := (2 * n + d) / (2 * d).
(** [n / d] rounded to the nearest integer, exact halves downwards. *)
Definition round_down (n d : Z) : Z := - round_up (- n) d.

Definition clamp255 (x : Z) : Z := Z.max 0 (Z.min 255 x).

(** ** Colours *)

Definition rgb := (Z * Z * Z)%type.

Definition dot (k p : Z * Z * Z) : Z :=
  let '(a, b, c) := k in let '(x, y, z) := p in a * x + b * y + c * z.

(** Weights, in units of 1/65536. *)
Definition y_weights (cs : color_space) : Z * Z * Z :=
  match cs with
  | Bt601 => (16829, 33039, 6416)
  | Bt709 => (11966, 40254, 4064)
  | Bt601FR => (19595, 38470, 7471)
  | Bt709FR => (13933, 46871, 4732)
  | CsRgb => (0, 0, 0)
  end.
Definition cb_weights (cs : color_space) : Z * Z * Z :=
  match cs with
  | Bt601 => (-9714, -19071, 28785)
  | Bt709 => (-6596, -22189, 28785)
  | Bt601FR => (-11058, -21709, 32767)
  | Bt709FR => (-7508, -25259, 32767)
  | CsRgb => (0, 0, 0)
  end.
Definition cr_weights (cs : color_space) : Z * Z * Z :=
  match cs with
  | Bt601 => (28785, -24103, -4682)
  | Bt709 => (28785, -26145, -2640)
  | Bt601FR => (32767, -27439, -5328)
  | Bt709FR => (32767, -29763, -3004)
  | CsRgb => (0, 0, 0)
  end.
Definition y_min (cs : color_space) : Z :=
  match cs with Bt601 | Bt709 => 16 | _ => 0 end.

(** Luma of a pixel. *)
Definition luma (cs : color_space) (p : rgb) : Z :=
  y_min cs + round_up (dot (y_weights cs) p) 65536.
(** Chroma of the average of [n] pixels whose component sums are [p]. *)
Definition blue_diff (cs : color_space) (n : Z) (p : rgb) : Z :=
  128 + round_down (dot (cb_weights cs) p) (n * 65536).
Definition red_diff (cs : color_space) (n : Z) (p : rgb) : Z :=
  128 + round_down (dot (cr_weights cs) p) (n * 65536).

(** YCbCr to RGB: coefficients in units of 1/16384 and offsets in units of 1/64:
    (y, cr to r, cr to g, cb to g, cb to b), (r, g, b). *)
Definition rgb_coefs (cs : color_space) : (Z * Z * Z * Z * Z) * (Z * Z * Z) :=
  match cs with
  | Bt601 => ((19077, 26149, 13320, 6419, 33050), (14234, 8709, 17685))
  | Bt709 => ((19077, 29372, 8731, 3494, 34610), (15846, 4952, 18465))
  | Bt601FR => ((16384, 22970, 11700, 5638, 29032), (11363, 8633, 14370))
  | Bt709FR => ((16384, 25802, 7670, 3069, 30402), (12768, 5359, 15050))
  | CsRgb => ((0, 0, 0, 0, 0), (0, 0, 0))
  end.

(** The three components in units of 1/64, before clamping. *)
Definition rgb64 (cs : color_space) (y cb cr : Z) : rgb :=
  let '((ky, krr, krg, kbg, kbb), (or_, og, ob)) := rgb_coefs cs in
  let l := y * ky / 256 in
  (l + (cr * krr / 256 - or_),
   l + (og - cb * kbg / 256 - cr * krg / 256),
   l + (cb * kbb / 256 - ob)).

Definition ycc_to_rgb (cs : color_space) (y cb cr : Z) : rgb :=
  let '(r, g, b) := rgb64 cs y cb cr in
  (clamp255 (r / 64), clamp255 (g / 64), clamp255 (b / 64)).

(** The pixel arithmetic of a conversion: luma, chroma, inverse. *)
Record arith := Arith {
  ar_luma : color_space -> rgb -> Z;
  ar_cb : color_space -> Z -> rgb -> Z;
  ar_cr : color_space -> Z -> rgb -> Z;
  ar_rgb : color_space -> Z -> Z -> Z -> rgb }.

Definition spec_arith : arith := Arith luma blue_diff red_diff ycc_to_rgb.

(** Vector kernels treat the last columns of an image differently from the others,
    so in general the arithmetic in use depends on the pixel column. *)
Definition columns := Z -> arith.
Definition spec_cols : columns := fun _ => spec_arith.

(** ** Images in memory *)

(** A plane: [rows] rows of [row] bytes, [stride] bytes apart, the first one at
    offset [base] of buffer number [buf]. *)
Record geom := Geom { g_buf : nat; g_base : Z; g_stride : Z; g_rows : Z; g_row : Z }.

(** Bytes per pixel of the packed formats. *)
Definition bytes_per_pixel (pf : pixel_format) : Z :=
  match pf with
  | Argb | Bgra | Rgba => 4
  | Bgr | Rgb => 3
  | _ => 0
  end.

(** The stride in effect: the given one, or the row size when it is 0 or when no
    strides are given. *)
Definition eff_stride (strides : option (list Z)) (i : nat) (row : Z) : Z :=
  match strides with
  | None => row
  | Some l => if nth i l 0 =? 0 then row else nth i l 0
  end.

(** The planes of an image. One-plane NV12 keeps the chroma after the luma, in the
    same buffer and with the same stride. *)
Definition planes (pf : pixel_format) (num_planes : Z) (strides : option (list Z))
           (w h : Z) : list geom :=
  match pf with
  | Argb | Bgra | Rgba | Bgr | Rgb =>
      let row := bytes_per_pixel pf * w in [Geom 0 0 (eff_stride strides 0 row) h row]
  | I444 => [Geom 0 0 (eff_stride strides 0 w) h w;
             Geom 1 0 (eff_stride strides 1 w) h w;
             Geom 2 0 (eff_stride strides 2 w) h w]
  | I422 => [Geom 0 0 (eff_stride strides 0 w) h w;
             Geom 1 0 (eff_stride strides 1 (w / 2)) h (w / 2);
             Geom 2 0 (eff_stride strides 2 (w / 2)) h (w / 2)]
  | I420 => [Geom 0 0 (eff_stride strides 0 w) h w;
             Geom 1 0 (eff_stride strides 1 (w / 2)) (h / 2) (w / 2);
             Geom 2 0 (eff_stride strides 2 (w / 2)) (h / 2) (w / 2)]
  | Nv12 =>
      let s := eff_stride strides 0 w in
      if num_planes =? 1
      then [Geom 0 0 s h w; Geom 0 (s * h) s (h / 2) w]
      else [Geom 0 0 s h w; Geom 1 0 (eff_stride strides 1 w) (h / 2) w]
  end.

(** Byte [j] of row [y] of a plane. *)
Definition sample (bufs : list (list Z)) (g : geom) (y j : Z) : Z :=
  nth (Z.to_nat (g_base g + y * g_stride g + j)) (nth (g_buf g) bufs []) 0.

Definition nth_plane (gs : list geom) (i : nat) : geom := nth i gs (Geom 0 0 0 0 0).

(** Position of R, G, B in a pixel. *)
Definition component_offsets (pf : pixel_format) : Z * Z * Z :=
  match pf with
  | Argb => (1, 2, 3)
  | Bgra => (2, 1, 0)
  | Bgr => (2, 1, 0)
  | _ => (0, 1, 2)
  end.

(** Colour of pixel (x, y) of a packed image. *)
Definition rgb_pixel (pf : pixel_format) (gs : list geom) (bufs : list (list Z)) (x y : Z) : rgb :=
  let '(o1, o2, o3) := component_offsets pf in
  let p := nth_plane gs 0 in
  let d := bytes_per_pixel pf in
  (sample bufs p y (d * x + o1), sample bufs p y (d * x + o2), sample bufs p y (d * x + o3)).

(** (Y, Cb, Cr) of pixel (x, y) of a planar image. *)
Definition ycc_pixel (pf : pixel_format) (gs : list geom) (bufs : list (list Z)) (x y : Z)
  : Z * Z * Z :=
  let s i := sample bufs (nth_plane gs i) in
  match pf with
  | I444 => (s 0%nat y x, s 1%nat y x, s 2%nat y x)
  | I422 => (s 0%nat y x, s 1%nat y (x / 2), s 2%nat y (x / 2))
  | I420 => (s 0%nat y x, s 1%nat (y / 2) (x / 2), s 2%nat (y / 2) (x / 2))
  | _ => (s 0%nat y x, s 1%nat (y / 2) (2 * (x / 2)), s 1%nat (y / 2) (2 * (x / 2) + 1))
  end.

Definition is_rgb (pf : pixel_format) : bool :=
  match pf with Argb | Bgra | Bgr | Rgba | Rgb => true | _ => false end.

Definition add_rgb (p q : rgb) : rgb :=
  let '(a, b, c) := p in let '(x, y, z) := q in (a + x, b + y, c + z).

(** Sum of the 2x2 block (x, y). *)
Definition block_sum (px : Z -> Z -> rgb) (x y : Z) : rgb :=
  add_rgb (add_rgb (px (2 * x) (2 * y)) (px (2 * x + 1) (2 * y)))
          (add_rgb (px (2 * x) (2 * y + 1)) (px (2 * x + 1) (2 * y + 1))).

(** Byte [k] of a pixel of format [pf] with the given colour; the alpha byte is 255. *)
Definition pixel_byte (pf : pixel_format) (p : rgb) (k : Z) : Z :=
  let '(r, g, b) := p in
  let '(o1, o2, o3) := component_offsets pf in
  if k =? o1 then r else if k =? o2 then g else if k =? o3 then b else 255.

(** An image description. *)
Record image := Image { i_pf : pixel_format; i_cs : color_space; i_planes : Z;
                        i_strides : option (list Z) }.

Definition image_planes (im : image) (w h : Z) : list geom :=
  planes (i_pf im) (i_planes im) (i_strides im) w h.

(** Colour of pixel (x, y) of the source, as RGB. *)
Definition source_rgb (A : columns) (src : image) (w h : Z) (bufs : list (list Z)) (x y : Z) : rgb :=
  let gs := image_planes src w h in
  if is_rgb (i_pf src) then rgb_pixel (i_pf src) gs bufs x y
  else let '(l, cb, cr) := ycc_pixel (i_pf src) gs bufs x y in ar_rgb (A x) (i_cs src) l cb cr.

(** What byte [j] of row [y] of plane [p] of the destination has to be. *)
Definition expected (A : columns) (src dst : image) (w h : Z) (bufs : list (list Z))
           (p : nat) (y j : Z) : Z :=
  let px := source_rgb A src w h bufs in
  let cs := i_cs dst in
  match i_pf dst, p with
  | Argb, _ | Bgra, _ | Rgba, _ | Bgr, _ | Rgb, _ =>
      let d := bytes_per_pixel (i_pf dst) in pixel_byte (i_pf dst) (px (j / d) y) (j mod d)
  | _, O => ar_luma (A j) cs (px j y)
  | I444, 1%nat => ar_cb (A j) cs 1 (px j y)
  | I444, _ => ar_cr (A j) cs 1 (px j y)
  | I420, 1%nat => ar_cb (A (2 * j)) cs 4 (block_sum px j y)
  | I420, _ => ar_cr (A (2 * j)) cs 4 (block_sum px j y)
  | Nv12, _ => if j mod 2 =? 0 then ar_cb (A (2 * (j / 2))) cs 4 (block_sum px (j / 2) y)
               else ar_cr (A (2 * (j / 2))) cs 4 (block_sum px (j / 2) y)
  | I422, _ => 0
  end.
