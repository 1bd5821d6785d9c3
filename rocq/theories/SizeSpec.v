(** The sizes get_buffers_size computes, as the code has them, with unlimited integers.
    (What they should be is [documented_sizes] of [ApiSpec].) Independent of the model. *)
From Coq Require Import ZArith List Bool.
Import ListNotations.
From Verif Require Import Fmt Spec ApiSpec.
Open Scope Z_scope.

(** With one plane, the image is taken for four planes laid one after the other, each with a
    stride of its own: those of the formats of packed bytes have [w] bytes in a row and [h]
    rows.  Strides that are not given, or 0, are the number of bytes of a row. *)
Definition advertised_sizes (im : image) (w h : Z) : list Z :=
  let s k row := eff_stride (i_strides im) k row in
  match i_pf im with
  | Argb | Bgra | Rgba => [(s 0%nat w + s 1%nat w + s 2%nat w + s 3%nat w) * h]
  | Bgr | Rgb => [(s 0%nat w + s 1%nat w + s 2%nat w + s 3%nat 0) * h]
  | I444 => [s 0%nat w * h; s 1%nat w * h; s 2%nat w * h]
  | I422 => [s 0%nat w * h; s 1%nat (w / 2) * h; s 2%nat (w / 2) * h]
  | I420 => [s 0%nat w * h; s 1%nat (w / 2) * (h / 2); s 2%nat (w / 2) * (h / 2)]
  | Nv12 => if i_planes im =? 1
            then [s 0%nat w * h + s 1%nat w * (h / 2) + (s 2%nat 0 + s 3%nat 0) * h]
            else [s 0%nat w * h; s 1%nat w * (h / 2)]
  end.

(** A one-plane NV12 image with bytes between its rows. *)
Definition padded_nv12 (im : image) (w : Z) : Prop :=
  i_pf im = Nv12 /\ i_planes im = 1 /\ eff_stride (i_strides im) 0 w <> w.

(** One stride for each plane, if strides are given. *)
Definition strides_given (im : image) : Prop :=
  match i_strides im with None => True | Some l => Z.of_nat (length l) = i_planes im end.

(** Buffers of exactly the advertised sizes. *)
Definition exactly_sized (im : image) (w h : Z) (bufs : list (list Z)) : Prop :=
  map (fun b => Z.of_nat (length b)) bufs = advertised_sizes im w h.
