(** How far an image extends. Independent of the model of the code. *)
From Coq Require Import ZArith List Bool.
Import ListNotations.
From Verif Require Import Fmt CpuInfo Spec SetSpec ApiSpec.
Open Scope Z_scope.

(** No plane ends after byte [lim] of its buffer, however long the buffer is. *)
Definition extent_below (lim : Z) (im : image) (w h : Z) : Prop :=
  Forall (fun g => g_base g + (g_rows g - 1) * g_stride g + g_row g <= lim) (image_planes im w h).

(** The image is inside of its buffers, except possibly for the very last byte of a BGRA image:
    the alpha of its last pixel. *)
Definition colors_in (im : image) (w h : Z) (bufs : list (list Z)) : Prop :=
  image_in (match i_pf im with Bgra => -1 | _ => 0 end) im w h bufs.

(** Everything that an instruction set reads of the source is in the buffers: [last_read] says
    where it stops, before or after the last byte of the image. *)
Definition read_in (set : instruction_set) (src dst : image) (w h : Z) (bufs : list (list Z)) : Prop :=
  image_in (last_read set (i_pf src) (i_pf dst) w) src w h bufs.
