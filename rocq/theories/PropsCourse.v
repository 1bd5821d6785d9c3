(** Properties of the positions a call touches (C61). *)
From Coq Require Import ZArith List Bool Lia.
Import ListNotations.
From Verif Require Import Base Fmt CpuInfo Lib Sets Spec SetSpec ApiSpec Api
  PropsConvert PropsPixel DataSpec Trace CourseSpec DataFacts.
Open Scope Z_scope.

(** C61: two calls with the same arguments on buffers of the same sizes read and write the same
    positions of the same buffers in the same order, whatever the bytes in the buffers. No layout,
    size or format is excluded, and no target; calls that fail or stop with a fault are included. *)
Theorem C61_same_positions : forall set T w h src dst sb sb' db db',
  same_sizes sb sb' -> same_sizes db db' -> of_bytes sb -> of_bytes sb' ->
  map position (accesses (converters set) T w h src dst sb db) =
  map position (accesses (converters set) T w h src dst sb' db').
Proof. exact convert_positions. Qed.
Print Assumptions C61_same_positions.
Example C61_same_positions_example :
  let black := [[0; 0; 0; 0; 0; 0; 0; 0; 0; 0; 0; 0; 0; 0; 0; 0]] in
  same_sizes ex_pixels black /\ of_bytes ex_pixels /\ of_bytes black /\
  accesses (converters X86) T64_debug 2 2 ex_bgra ex_nv12 ex_pixels ex_nv12_buffers <>
    accesses (converters X86) T64_debug 2 2 ex_bgra ex_nv12 black ex_nv12_buffers /\
  map position (accesses (converters X86) T64_debug 2 2 ex_bgra ex_nv12 ex_pixels ex_nv12_buffers) =
    [(false, Src 0, 2); (false, Src 0, 1); (false, Src 0, 0); (false, Src 0, 6); (false, Src 0, 5); (false, Src 0, 4);
     (true, Dst 0, 0); (true, Dst 0, 1);
     (false, Src 0, 10); (false, Src 0, 9); (false, Src 0, 8); (false, Src 0, 14); (false, Src 0, 13); (false, Src 0, 12);
     (true, Dst 0, 2); (true, Dst 0, 3); (true, Dst 1, 0); (true, Dst 1, 1)].
Proof.
  cbv zeta. split; [reflexivity|]. split; [repeat constructor; discriminate|]. split; [repeat constructor; discriminate|].
  split; [|vm_compute; reflexivity]. intros E. apply (f_equal (fun l => nth 6 l (Reads (Src 0) 0))) in E. vm_compute in E. discriminate E.
Qed.
(** A call that stops with a fault: the vector code reads past the end of a buffer without spare
    bytes (C38). What it does until then is the same too. *)
Example C61_fault_example :
  let src := Image Bgr CsRgb 1 None in let dst := Image I444 Bt601 3 None in
  let run sb := convert (converters CpuInfo.Avx2) T64_debug 24 1 src dst sb (zeros [24; 24; 24]) in
  let l sb := accesses (converters CpuInfo.Avx2) T64_debug 24 1 src dst sb (zeros [24; 24; 24]) in
  let black := [repeat 0 72] in let ramp := [map Z.of_nat (seq 0 72)] in
  run black = Fault OOB_read /\ run ramp = Fault OOB_read /\ l black <> l ramp /\
  map position (l ramp) = map position (l black) /\ last (map position (l black)) (true, Src 0, 0) = (false, Src 0, 72).
Proof.
  cbv zeta. split; [vm_compute; reflexivity|]. split; [vm_compute; reflexivity|].
  split; [|split; vm_compute; reflexivity]. intros E. apply (f_equal (fun l => filter (fun x => match x with Writes _ _ v => negb (v =? 16) | _ => false end) l)) in E.
  vm_compute in E. discriminate E.
Qed.

(** C61: the same of calls through the C interface. *)
Theorem C61_same_positions_c : forall set T w h src dst sb sb' db db' error,
  same_sizes sb sb' -> same_sizes db db' -> of_bytes sb -> of_bytes sb' ->
  map position (c_accesses (converters set) T w h src dst sb db error) =
  map position (c_accesses (converters set) T w h src dst sb' db' error).
Proof. exact c_convert_positions. Qed.
Print Assumptions C61_same_positions_c.
