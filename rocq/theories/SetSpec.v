(** Which pixel arithmetic each instruction set uses, and how much it reads. *)
From Coq Require Import ZArith List Bool.
Import ListNotations.
From Verif Require Import Fmt CpuInfo Spec SimdSpec.
Open Scope Z_scope.

(** The number of columns, from the left, done by vector code: whole groups of pixels. *)
Definition vector_part (set : instruction_set) (spf dpf : pixel_format) (w : Z) : Z :=
  let groups n := n * (w / n) in
  match set, is_rgb spf, is_rgb dpf with
  | Sse2, true, false => if bytes_per_pixel spf =? 3 then groups 12 else groups 4
  | Avx2, true, false => if bytes_per_pixel spf =? 3 then groups 24 else groups 8
  | Neon, true, false => groups 8
  | Sse2, false, _ => match spf, dpf with Nv12, Rgb => 0 | I444, _ => groups 8 | _, _ => groups 16 end
  | Avx2, false, _ => match spf with I444 => groups 16 | _ => groups 32 end
  | _, _, _ => 0
  end.
Definition vector_arith (set : instruction_set) : arith :=
  match set with X86 => spec_arith | Sse2 | Avx2 => x86_arith | Neon => neon_arith end.

(** The arithmetic in use in each column. *)
Definition set_cols (set : instruction_set) (spf dpf : pixel_format) (w : Z) : columns :=
  match set with
  | X86 => spec_cols
  | _ => left_cols (vector_part set spf dpf w) (vector_arith set)
  end.

(** SSE2 and AVX2 load whole registers from BGR sources: up to 4 and 8 bytes after the
    last group of pixels (12 and 24 of them). This is how many of them are after the last
    pixel of the row. *)
Definition over_read (set : instruction_set) (spf dpf : pixel_format) (w : Z) : Z :=
  let beyond n bytes := if n <=? w then Z.max 0 (bytes - 3 * (w mod n)) else 0 in
  match set, spf, is_rgb dpf with
  | Sse2, Bgr, false => beyond 12 4
  | Avx2, Bgr, false => beyond 24 8
  | _, _, _ => 0
  end.

(** Whether the alpha byte of the last pixel of a BGRA source is read. The portable code reads
    the three colors of each pixel; vector registers, and the blocks of eight pixels in which
    BGRA is re-ordered to RGB, take whole pixels. *)
Definition reads_alpha (set : instruction_set) (dpf : pixel_format) (w : Z) : bool :=
  match is_rgb dpf, set with
  | true, _ => w mod 8 =? 0
  | false, X86 => false
  | false, Sse2 => w mod 4 =? 0
  | false, (Avx2 | Neon) => w mod 8 =? 0
  end.

(** Where reading stops, counted from the end of the last row of the source image. *)
Definition last_read (set : instruction_set) (spf dpf : pixel_format) (w : Z) : Z :=
  match spf with
  | Bgra => if reads_alpha set dpf w then 0 else -1
  | _ => over_read set spf dpf w
  end.

(** The blue component of a YCbCr pixel is below 512: in units of 1/64 it fits in 16 bits. *)
Definition blue_fits (cs : color_space) (p : Z * Z * Z) : Prop :=
  let '(l, cb, cr) := p in snd (rgb64 cs l cb cr) < 32768.

(** The exact chroma is half way between two integers. *)
Definition tie (weights : Z * Z * Z) (n : Z) (p : rgb) : Prop :=
  (2 * dot weights p) mod (2 * (n * 65536)) = n * 65536.
