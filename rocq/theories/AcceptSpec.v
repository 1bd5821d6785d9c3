(** The condition under which [convert_image] takes the buffers it is given, as the code has it.
    (What it should be is [image_in] of [ApiSpec].) Independent of the model of the code. *)
From Coq Require Import ZArith List Bool.
Import ListNotations.
From Verif Require Import Fmt Spec ApiSpec.
Open Scope Z_scope.

(** One plane in [len] bytes: one stride, and one row for each of the other rows. [row] is the
    size of a row. *)
Definition plane_taken (len stride rows row : Z) : Prop := stride + row * (rows - 1) <= len.

(** [packed] tells that both images of the conversion are packed RGB; then the number of pixels
    of a row is taken for the number of its bytes. One-plane NV12 is cut after the luma rows. *)
Definition image_taken (packed : bool) (im : image) (w h : Z) (bufs : list (list Z)) : Prop :=
  if (match i_pf im with Nv12 => true | _ => false end) && (i_planes im =? 1) then
    let s := eff_stride (i_strides im) 0 w in let len := buf_len bufs 0 in
    s * h <= len /\ plane_taken (s * h) s h w /\ plane_taken (len - s * h) s (h / 2) w
  else
    Forall (fun g => plane_taken (buf_len bufs (g_buf g)) (g_stride g) (g_rows g)
                       (if packed then w else g_row g)) (image_planes im w h).

(** Both images: enough buffers and strides, and all planes taken. *)
Definition buffers_taken (src dst : image) (w h : Z) (sb db : list (list Z)) : Prop :=
  let packed := is_rgb (i_pf src) && is_rgb (i_pf dst) in
  enough_planes src sb /\ enough_planes dst db /\
  image_taken packed src w h sb /\ image_taken packed dst w h db.

(** Every plane has at least one whole stride within [lens n] bytes, [n] the number of its buffer. *)
Definition stride_in (lens : nat -> Z) (im : image) (w h : Z) : Prop :=
  Forall (fun g => g_base g + g_stride g <= lens (g_buf g)) (image_planes im w h).
