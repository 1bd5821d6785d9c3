(** Theorems about the contents of the buffers. *)
From Coq Require Import ZArith List Bool Lia.
Import ListNotations.
From Verif Require Import Base Fmt CpuInfo Lib Sets Spec SetSpec ApiSpec Api
  PropsConvert PropsPixel DataSpec DataFacts.
Open Scope Z_scope.

(** C55: two calls with the same arguments on buffers of the same sizes run the same course,
    whatever the bytes in the buffers: both succeed, both return the same error, or both stop with
    the same fault (panic, overflow, access out of bounds).  No layout, size or format is excluded,
    and no target. *)
Theorem C55_same_course : forall set T w h src dst sb sb' db db',
  same_sizes sb sb' -> same_sizes db db' -> of_bytes sb -> of_bytes sb' ->
  same_course (convert (converters set) T w h src dst sb db) (convert (converters set) T w h src dst sb' db').
Proof. exact convert_course. Qed.
Print Assumptions C55_same_course.
Example C55_same_course_example :
  let black := [[0; 0; 0; 0; 0; 0; 0; 0; 0; 0; 0; 0; 0; 0; 0; 0]] in
  same_sizes ex_pixels black /\ of_bytes ex_pixels /\ of_bytes black /\ ex_pixels <> black /\
  convert (converters CpuInfo.Avx2) T64_debug 2 2 ex_bgra ex_nv12 ex_pixels ex_nv12_buffers =
    Ok Success (Mem ex_pixels [[35; 99; 16; 235]; [139; 122; 77]]) /\
  convert (converters CpuInfo.Avx2) T64_debug 2 2 ex_bgra ex_nv12 black ex_nv12_buffers =
    Ok Success (Mem black [[16; 16; 16; 16]; [128; 128; 77]]).
Proof.
  cbv zeta. split; [reflexivity|]. split; [repeat constructor; discriminate|]. split; [repeat constructor; discriminate|].
  split; [discriminate|]. split; vm_compute; reflexivity.
Qed.
(** The faulting course: a stride smaller than a row. *)
Example C55_same_fault_example :
  let src := Image Bgra CsRgb 1 (Some [1]) in let dst := Image Rgb CsRgb 1 None in
  Forall (fun sb => convert (converters X86) T64_debug 8 2 src dst sb (zeros [48]) = Fault Overflow)
    [[repeat 0 64]; [repeat 255 64]; [map Z.of_nat (seq 0 64)]].
Proof. repeat constructor; vm_compute; reflexivity. Qed.

(** C55: the same of calls through the C interface. *)
Theorem C55_same_course_c : forall set T w h src dst sb sb' db db' error,
  same_sizes sb sb' -> same_sizes db db' -> of_bytes sb -> of_bytes sb' ->
  same_course (c_convert (converters set) T w h src dst sb db error) (c_convert (converters set) T w h src dst sb' db' error).
Proof. exact c_convert_course. Qed.
Print Assumptions C55_same_course_c.

(** C55: once an image of some layout was converted, every image of this layout is. *)
Theorem C55_every_frame : forall set T w h src dst sb db m sb' db',
  successful_call (converters set) T w h src dst sb db m ->
  same_sizes sb sb' -> same_sizes db db' -> of_bytes sb' -> of_bytes db' ->
  exists m', successful_call (converters set) T w h src dst sb' db' m'.
Proof. exact every_frame. Qed.
Print Assumptions C55_every_frame.
