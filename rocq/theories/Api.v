(** How callers use the model of [convert_image]: a Rust call and a C call on an
    image given by its description and its buffers. *)
From Coq Require Import ZArith List Bool.
Import ListNotations.
From Verif Require Import Base Fmt CpuInfo Spec SetSpec ApiSpec Common Wrappers Lib.
Open Scope Z_scope.

(** The slices a Rust caller passes: one per buffer, of its length. *)
Fixpoint slices_from (mk : nat -> plane) (i : nat) (bufs : list (list Z)) : list slice :=
  match bufs with
  | [] => []
  | b :: bufs' => Slice (mk i) 0 (zlen b) :: slices_from mk (S i) bufs'
  end.
Definition rust_slices (mk : nat -> plane) (bufs : list (list Z)) : list slice :=
  slices_from mk 0 bufs.

Definition format_of (im : image) : image_format :=
  image_format_of (i_pf im) (i_cs im) (i_planes im).

(** A call of [convert_image] (lib.rs:891-972) by a Rust program. *)
Definition convert (impl : conv -> converter) (T : target) (w h : Z) (src dst : image)
           (sbufs dbufs : list (list Z)) : res outcome :=
  convert_image impl w h
    (format_of src) (option_map arr_of (i_strides src)) (arr_of (rust_slices Src sbufs))
    (format_of dst) (option_map arr_of (i_strides dst)) (arr_of (rust_slices Dst dbufs))
    T (Mem sbufs dbufs).

(** A call of [dcp_convert_image] (lib.rs:1075-1179) by a C program: all pointers
    are non-null, one plane pointer per buffer. *)
Definition c_convert (impl : conv -> converter) (T : target) (w h : Z) (src dst : image)
           (sbufs dbufs : list (list Z)) (error : option (option error_kind))
  : res (c_result * option (option error_kind)) :=
  dcp_convert_image impl w h
    (Some (format_of src)) (i_strides src) (Some (repeat true (length sbufs)))
    (Some (format_of dst)) (i_strides dst) (Some (repeat true (length dbufs)))
    error T (Mem sbufs dbufs).

(** A call on images inside of their buffers that returns [Ok(())], leaving memory [m']. *)
Definition successful_call (impl : conv -> converter) (T : target) (w h : Z) (src dst : image)
           (sbufs dbufs : list (list Z)) (m' : mem) : Prop :=
  is_target T /\ well_formed (usz T) w h src dst sbufs dbufs /\ 0 < w /\ 0 < h /\
  laid_out src w h sbufs /\ laid_out dst w h dbufs /\
  convert impl T w h src dst sbufs dbufs = Ok Success m'.

(** The source buffer has the bytes that the vector kernels of [set] read after the last
    pixel of the image ([over_read]: none, except from BGR on SSE2 and AVX2). *)
Definition room (set : instruction_set) (src dst : image) (w h : Z) (sbufs : list (list Z)) : Prop :=
  image_in (over_read set (i_pf src) (i_pf dst) w) src w h sbufs.
