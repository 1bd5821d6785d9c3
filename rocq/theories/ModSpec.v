(** Which buffers are taken when the sizes of rows and planes are counted modulo the size of a
    machine word. Independent of the model of the code. *)
From Coq Require Import ZArith List Bool.
Import ListNotations.
From Verif Require Import Fmt Spec ApiSpec AcceptSpec.
Open Scope Z_scope.

(** A row of the image, or the luma plane of NV12 in one buffer, has [M] bytes or more. *)
Definition too_large (M : Z) (im : image) (w h : Z) : Prop :=
  M <= bytes_per_pixel (i_pf im) * w \/
  (i_pf im = Nv12 /\ i_planes im = 1 /\ M <= eff_stride (i_strides im) 0 w * h).

(** [image_taken] with sizes modulo [M]. *)
Definition image_taken_mod (M : Z) (packed : bool) (im : image) (w h : Z) (bufs : list (list Z)) : Prop :=
  if is_rgb (i_pf im) then
    let row := (bytes_per_pixel (i_pf im) * w) mod M in
    plane_taken (buf_len bufs 0) (eff_stride (i_strides im) 0 row) h (if packed then w else row)
  else if (match i_pf im with Nv12 => true | _ => false end) && (i_planes im =? 1) then
    let s := eff_stride (i_strides im) 0 w in let len := buf_len bufs 0 in
    let luma := (s * h) mod M in
    luma <= len /\ plane_taken luma s h w /\ plane_taken (len - luma) s (h / 2) w
  else image_taken packed im w h bufs.

Definition buffers_taken_mod (M : Z) (src dst : image) (w h : Z) (sb db : list (list Z)) : Prop :=
  let packed := is_rgb (i_pf src) && is_rgb (i_pf dst) in
  enough_planes src sb /\ enough_planes dst db /\
  image_taken_mod M packed src w h sb /\ image_taken_mod M packed dst w h db.
