(** The bytes that the portable re-orderings produce on a big-endian machine. *)
From Coq Require Import ZArith List Bool.
Import ListNotations.
From Verif Require Import Base Fmt Spec ApiSpec.
Open Scope Z_scope.

(** The columns before [big_eight] are converted eight at a time, those before [big_single] one at a
    time, both with words that are loaded, shifted and stored; the last column byte by byte.  [pad] is the
    number of bytes between the rows of the source, [last] says that it is the last row. *)
Definition big_eight (w pad : Z) (last : bool) : Z :=
  if last || ((w mod 8 =? 0) && (pad <? 2)) then 8 * ((w - 1) / 8) else 8 * (w / 8).
Definition big_single (w pad : Z) (last : bool) : Z := if last || (pad <? 1) then w - 1 else w.

(** RGB to BGRA: byte [k] of pixel [x] of a row, [s] being the source from the start of the row.  The opaque
    alpha comes first, and the colours are those two (one) bytes further on in the source. *)
Definition big_bgra (eight single : Z) (s : Z -> Z) (x k : Z) : Z :=
  if x <? eight then if k =? 0 then 255 else s (3 * x + 5 - k)
  else if x <? single then if k =? 0 then 255 else s (3 * x + 4 - k)
  else if k =? 3 then 255 else s (3 * x + 2 - k).

(** BGR and BGRA to RGB: where the 24 bytes of eight destination pixels come from, in the eight source
    pixels; the other pixels of a row are copied byte by byte. *)
Definition big_bgr_order : list Z :=
  [0; 15; 4; 3; 2; 7; 6; 5;  22; 11; 10; 9; 14; 13; 12; 1;  18; 17; 16; 21; 20; 19; 8; 23].
Definition big_bgra_order : list Z :=
  [14; 13; 3; 2; 1; 7; 6; 5;  17; 23; 22; 21; 11; 10; 9; 15;  27; 26; 25; 31; 30; 29; 19; 18].
Definition big_rgb (order : list Z) (depth w : Z) (s : Z -> Z) (j : Z) : Z :=
  if j <? 24 * (w / 8) then s (8 * depth * (j / 24) + nth (Z.to_nat (j mod 24)) order 0)
  else s (depth * (j / 3) + 2 - j mod 3).

(** Byte [j] of a destination row. *)
Definition big_byte (spf dpf : pixel_format) (w pad : Z) (last : bool) (s : Z -> Z) (j : Z) : Z :=
  match spf, dpf with
  | Rgb, Bgra => big_bgra (big_eight w pad last) (big_single w pad last) s (j / 4) (j mod 4)
  | Bgr, Rgb => big_rgb big_bgr_order 3 w s j
  | Bgra, Rgb => big_rgb big_bgra_order 4 w s j
  | _, _ => s j
  end.

(** The destination buffers after a re-ordering there, byte by byte: those of the picture, and all the
    others, which are left as they were. *)
Definition big_reordered (src dst : image) (w h : Z) (sb db after : list (list Z)) : Prop :=
  let s := plane_of src w h 0 in let d := plane_of dst w h 0 in
  map (@length Z) after = map (@length Z) db /\
  (forall y j, 0 <= y < h -> 0 <= j < g_row d -> sample after d y j =
     big_byte (i_pf src) (i_pf dst) w (g_stride s - g_row s) (y =? h - 1) (sample sb s y) j) /\
  (forall n a, 0 <= a < buf_len db n -> ~ in_image dst w h n a ->
     nth (Z.to_nat a) (nth n after []) 0 = nth (Z.to_nat a) (nth n db []) 0).
