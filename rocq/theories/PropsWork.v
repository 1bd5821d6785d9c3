(** The work of a call (C63). *)
From Coq Require Import ZArith List Bool Lia.
Import ListNotations.
From Verif Require Import Base Fmt Wrappers CpuInfo Spec SetSpec ApiSpec Lib Sets Api PropsConvert PropsPixel Trace WorkSpec WorkRunFacts.
Open Scope Z_scope.

(** C63: however the call ends (success, error, panic or an access outside of the buffers), whatever
    the formats, strides, buffers and their contents, it takes at most forty steps for each pixel
    and a hundred more. Machines of either byte order, checked or not. *)
Theorem C63_linear : forall set T w h src_format src_strides src_buffers dst_format dst_strides dst_buffers m,
  usz T = 2 ^ 64 \/ usz T = 2 ^ 32 -> 0 <= w < 2 ^ 32 -> 0 <= h < 2 ^ 32 ->
  steps (convert_image (converters set) w h src_format src_strides src_buffers dst_format dst_strides dst_buffers) T m
    <= 100 + 40 * (w * h).
Proof. exact c63. Qed.
Print Assumptions C63_linear.
Theorem C63_linear_c : forall set T w h src_format src_strides src_buffers dst_format dst_strides dst_buffers error m,
  usz T = 2 ^ 64 \/ usz T = 2 ^ 32 -> 0 <= w < 2 ^ 32 -> 0 <= h < 2 ^ 32 ->
  steps (dcp_convert_image (converters set) w h src_format src_strides src_buffers dst_format dst_strides dst_buffers error) T m
    <= 100 + 40 * (w * h).
Proof. exact c63_c. Qed.
Print Assumptions C63_linear_c.

(** C63: the sizes of buffers take the same time for all pictures. *)
Theorem C63_sizes : forall T w h format strides sizes m, usz T = 2 ^ 64 \/ usz T = 2 ^ 32 ->
  steps (get_buffers_size w h format strides sizes) T m <= 11.
Proof. exact c63_sizes. Qed.
Print Assumptions C63_sizes.
Theorem C63_sizes_c : forall T w h format strides sizes error m, usz T = 2 ^ 64 \/ usz T = 2 ^ 32 ->
  steps (dcp_get_buffers_size w h format strides sizes error) T m <= 11.
Proof. exact c63_c_sizes. Qed.
Print Assumptions C63_sizes_c.

(** C63: the accesses of a call (those of C59) are among its steps: no more than so many bytes are
    read and written together. *)
Theorem C63_accesses : forall set T w h src dst sb db,
  usz T = 2 ^ 64 \/ usz T = 2 ^ 32 -> 0 <= w < 2 ^ 32 -> 0 <= h < 2 ^ 32 ->
  Z.of_nat (length (accesses (converters set) T w h src dst sb db)) <= 100 + 40 * (w * h).
Proof. exact c63_accesses. Qed.
Print Assumptions C63_accesses.

(** Ten by two pixels from BGRA to I444: 737 steps, of at most 900; the same call with a buffer of 41
    bytes instead of 80, as a C program would make it, faults at step 381. *)
Definition ex_work (set : instruction_set) (w h : Z) (src dst : image) (sb db : list (list Z)) : Z :=
  steps (convert_image (converters set) w h
    (format_of src) None (arr_of (rust_slices Src sb)) (format_of dst) None (arr_of (rust_slices Dst db))) T64_debug (Mem sb db).
Definition ex_c_work (set : instruction_set) (w h : Z) (src dst : image) (sb db : list (list Z)) : Z :=
  steps (dcp_convert_image (converters set) w h (Some (format_of src)) None (Some (repeat true (length sb)))
    (Some (format_of dst)) None (Some (repeat true (length db))) None) T64_debug (Mem sb db).
Example C63_linear_example :
  ex_work X86 10 2 ex_bgra ex_i444 [ramp 80] (zeros [20; 20; 20]) = 737 /\
  ex_work CpuInfo.Sse2 10 2 ex_bgra ex_i444 [ramp 80] (zeros [20; 20; 20]) = 322 /\
  ex_c_work X86 10 2 ex_bgra ex_i444 [ramp 41] (zeros [20; 20; 20]) = 381.
Proof. repeat split; vm_compute; reflexivity. Qed.
