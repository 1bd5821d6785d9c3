(** Vocabulary for the property about the bytes a conversion reads. *)
From Coq Require Import ZArith List Bool.
Import ListNotations.
From Verif Require Import Base Fmt CpuInfo Spec SetSpec ApiSpec.
Open Scope Z_scope.

(** Bytes read after the end of a row that is not the last one of its plane: the portable code that
    re-orders RGB to BGRA loads words of four and eight bytes, of which it uses three and six, as long
    as a whole pixel or the distance to the next row leaves room for that. Vector registers convert the
    first columns, the portable code converts the others: to it, [stride - 3 * rest] bytes are free. *)
Definition spill (set : instruction_set) (spf dpf : pixel_format) (w stride : Z) : Z :=
  let rest := match set with X86 => w | Sse2 | Neon => w mod 16 | Avx2 => w mod 32 end in
  match spf, dpf with
  | Rgb, Bgra => if rest =? 0 then 0 else Z.min (if rest mod 8 =? 0 then 2 else 1) (stride - 3 * rest)
  | _, _ => 0
  end.

(** Position [a] of buffer [n] is a byte of the image, or one of the few bytes after the end of one of
    its rows: [last] of them after every row, and [more] after every row but the last. *)
Definition near_image (last more : Z) (im : image) (w h : Z) (n : nat) (a : Z) : Prop :=
  exists g y j, In g (image_planes im w h) /\ n = g_buf g /\ 0 <= y < g_rows g /\
    0 <= j < g_row g + Z.max last (if y + 1 <? g_rows g then more else 0) /\
    a = g_base g + y * g_stride g + j.

(** What a call of [convert_image] may read of the source buffers. *)
Definition readable (set : instruction_set) (src dst : image) (w h : Z) (n : nat) (a : Z) : Prop :=
  near_image (over_read set (i_pf src) (i_pf dst) w)
    (spill set (i_pf src) (i_pf dst) w (eff_stride (i_strides src) 0 (bytes_per_pixel (i_pf src) * w))) src w h n a.

(** The conversions that read nothing but the image. *)
Definition no_spill (set : instruction_set) (spf dpf : pixel_format) : Prop :=
  (spf = Bgr -> is_rgb dpf = true \/ set = X86 \/ set = Neon) /\ ~ (spf = Rgb /\ dpf = Bgra).
