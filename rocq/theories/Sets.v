(** The functions the dispatch table points to for each instruction set: lib.rs:526-589
    with the macros of lib.rs:378-505 and dispatcher.rs:22-113.  The [cfg] attributes keep
    Neon out of x86 builds and the others out of aarch64 builds; [get_x86] and [get_aarch64]
    of [CpuInfo] only return sets of their own architecture. *)
From Coq Require Import ZArith List Bool.
Import ListNotations.
From Verif Require Import Base Fmt Common Scalar Wrappers CpuInfo Lib.
From Verif Require Sse2 Avx2 Neon.
Open Scope Z_scope.

(** sse2.rs:1469-1654, with the macro instantiations of dispatcher.rs:22-113 *)
Definition sse2_converter (c : conv) : converter :=
  match c with
  | Rgb_rgb Bgr _ => Sse2.sse2_bgr_rgb
  | Rgb_rgb Bgra _ => Sse2.sse2_bgra_rgb
  | Rgb_rgb _ _ => Sse2.sse2_rgb_bgra
  | Rgb_yuv s I420 cs => Sse2.sse2_rgb_i420 (sampler_of s) (pf_depth s) (colorimetry_of cs)
  | Rgb_yuv s I444 cs => Sse2.sse2_rgb_i444 (sampler_of s) (pf_depth s) (colorimetry_of cs)
  | Rgb_yuv s _ cs => Sse2.sse2_rgb_nv12 (sampler_of s) (pf_depth s) (colorimetry_of cs)
  | Yuv_rgb I420 cs d => Sse2.sse2_i420_rgb (colorimetry_of cs) (pf_depth d) (pf_reversed d)
  | Yuv_rgb I444 cs d => Sse2.sse2_i444_rgb (colorimetry_of cs) (pf_depth d) (pf_reversed d)
  | Yuv_rgb _ cs d => Sse2.sse2_nv12_rgb (colorimetry_of cs) (pf_depth d) (pf_reversed d)
  end.

(** avx2.rs:2022-2290, with the macro instantiations of dispatcher.rs:22-83 *)
Definition avx2_converter (c : conv) : converter :=
  match c with
  | Rgb_rgb Bgr _ => Avx2.avx2_bgr_rgb
  | Rgb_rgb Bgra _ => Avx2.avx2_bgra_rgb
  | Rgb_rgb _ _ => Avx2.avx2_rgb_bgra
  | Rgb_yuv s I420 cs => Avx2.avx2_rgb_i420 (sampler_of s) (pf_depth s) (colorimetry_of cs)
  | Rgb_yuv s I444 cs => Avx2.avx2_rgb_i444 (sampler_of s) (pf_depth s) (colorimetry_of cs)
  | Rgb_yuv s _ cs => Avx2.avx2_rgb_nv12 (sampler_of s) (pf_depth s) (colorimetry_of cs)
  | Yuv_rgb I420 cs d => Avx2.avx2_i420_rgb (colorimetry_of cs) (pf_depth d) (pf_reversed d)
  | Yuv_rgb I444 cs d => Avx2.avx2_i444_rgb (colorimetry_of cs) (pf_depth d) (pf_reversed d)
  | Yuv_rgb _ cs d => Avx2.avx2_nv12_rgb (colorimetry_of cs) (pf_depth d) (pf_reversed d)
  end.

(** neon.rs:774-1069: from YCbCr the functions of x86.rs are called (dispatcher.rs:85-113) *)
Definition neon_converter (c : conv) : converter :=
  match c with
  | Rgb_rgb Bgr _ => Neon.neon_bgr_rgb
  | Rgb_rgb Bgra _ => Neon.neon_bgra_rgb
  | Rgb_rgb _ _ => Neon.neon_rgb_bgra
  | Rgb_yuv s I420 cs => Neon.neon_rgb_i420 (sampler_of s) (pf_depth s) (colorimetry_of cs)
  | Rgb_yuv s I444 cs => Neon.neon_rgb_i444 (sampler_of s) (pf_depth s) (colorimetry_of cs)
  | Rgb_yuv s _ cs => Neon.neon_rgb_nv12 (sampler_of s) (pf_depth s) (colorimetry_of cs)
  | Yuv_rgb _ _ _ => x86_converter c
  end.

(** lib.rs:526-589 *)
Definition converters (set : instruction_set) : conv -> converter :=
  match set with
  | X86 => x86_converter
  | CpuInfo.Sse2 => sse2_converter
  | CpuInfo.Avx2 => avx2_converter
  | CpuInfo.Neon => neon_converter
  end.
