(** The bytes of an image that carry colour. *)
From Coq Require Import ZArith List Bool.
Import ListNotations.
From Verif Require Import Fmt Spec.
Open Scope Z_scope.

(** Byte [k] of a pixel is its alpha. *)
Definition is_alpha (pf : pixel_format) (k : Z) : bool :=
  match pf with
  | Argb => k =? 0
  | Bgra | Rgba => k =? 3
  | _ => false
  end.

(** Position [a] of buffer [n] is a byte of the image other than the alpha of a pixel. *)
Definition colour_byte (im : image) (w h : Z) (n : nat) (a : Z) : Prop :=
  exists g y j, In g (image_planes im w h) /\ n = g_buf g /\ 0 <= y < g_rows g /\ 0 <= j < g_row g /\
                a = g_base g + y * g_stride g + j /\ is_alpha (i_pf im) (j mod 4) = false.

(** Two sets of buffers differ in one byte. *)
Definition differ_at (n : nat) (a : Z) (bufs bufs' : list (list Z)) : Prop :=
  map (@length Z) bufs = map (@length Z) bufs' /\
  nth (Z.to_nat a) (nth n bufs []) 0 <> nth (Z.to_nat a) (nth n bufs' []) 0 /\
  forall k b, 0 <= b -> (k, b) <> (n, a) -> nth (Z.to_nat b) (nth k bufs []) 0 = nth (Z.to_nat b) (nth k bufs' []) 0.
