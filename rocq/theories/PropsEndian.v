(** Theorems about the byte order of the machine. *)
From Coq Require Import ZArith List Bool Lia.
Import ListNotations.
From Verif Require Import Base Fmt CpuInfo Lib Sets Spec SetSpec ApiSpec Api
  PropsConvert PropsPixel EndianSpec BigFacts.
Open Scope Z_scope.

(** C49: everything from or to YCbCr, and narrow images to RGB, is converted alike on machines
    of either byte order: the same answer, the same bytes, the same faults.  [converters X86]
    is the code that architectures other than x86 and aarch64 run.  Missing: the other
    re-orderings, for which it is false ([C49_reorder_refuted]). *)
Theorem C49_same_result_partial : forall T T' w h src dst sb db, alike T T' ->
  0 <= i_planes src < 2 ^ 32 -> 0 <= i_planes dst < 2 ^ 32 -> byte_wise src dst w ->
  convert (converters X86) T w h src dst sb db = convert (converters X86) T' w h src dst sb db.
Proof. exact (fun T T' w h src dst sb db H => byte_wise_same T T' H w h src dst sb db). Qed.
Print Assumptions C49_same_result_partial.
Example C49_same_result_example :
  alike T64_debug (big_endian T64_debug) /\ T64_debug <> big_endian T64_debug /\
  byte_wise ex_bgra ex_nv12 2 /\
  convert (converters X86) (big_endian T64_debug) 2 2 ex_bgra ex_nv12 ex_pixels ex_nv12_buffers =
    Ok Success (Mem ex_pixels [[35; 99; 16; 235]; [139; 122; 77]]).
Proof. split; [split; reflexivity|]. split; [discriminate|]. split; [right; left; reflexivity|vm_compute; reflexivity]. Qed.

(** C49: whatever the formats, the byte order never decides between success, error and fault, and
    never changes the size of a buffer or a byte of the source. *)
Theorem C49_same_outcome : forall T T' w h src dst sb db, alike T T' ->
  0 <= i_planes src < 2 ^ 32 -> 0 <= i_planes dst < 2 ^ 32 ->
  same_outcome (convert (converters X86) T w h src dst sb db) (convert (converters X86) T' w h src dst sb db).
Proof. exact (fun T T' w h src dst sb db H => any_same_outcome T T' H w h src dst sb db). Qed.
Print Assumptions C49_same_outcome.

(** C49: the same sizes are answered. *)
Theorem C49_same_sizes : forall T T' w h f strides out m, alike T T' ->
  get_buffers_size w h f strides out T m = get_buffers_size w h f strides out T' m.
Proof. exact (fun T T' w h f s out m H => any_same_sizes T T' H w h f s out m). Qed.
Print Assumptions C49_same_sizes.

(** C49 is false of the three re-orderings: the words are loaded, swapped and stored as if the
    first byte were the least significant one. *)
Definition ex_row (n : nat) : list (list Z) := [map (fun i => (Z.of_nat i + 1)) (seq 0 n)].
Theorem C49_reorder_refuted :
  Forall (fun '(spf, dpf) => exists w h sb db m m',
    let src := Image spf CsRgb 1 None in let dst := Image dpf CsRgb 1 None in
    successful_call (converters X86) T64_debug w h src dst sb db m /\
    convert (converters X86) (big_endian T64_debug) w h src dst sb db = Ok Success m' /\
    dsts m <> dsts m')
  [(Bgr, Rgb); (Bgra, Rgb); (Rgb, Bgra)].
Proof.
  repeat constructor.
  - exists 8, 1, (ex_row 24), (zeros [24]). do 2 eexists. cbv zeta. split; [check_success|].
    split; [vm_compute; reflexivity|discriminate].
  - exists 8, 1, (ex_row 32), (zeros [24]). do 2 eexists. cbv zeta. split; [check_success|].
    split; [vm_compute; reflexivity|discriminate].
  - exists 2, 1, (ex_row 6), (zeros [8]). do 2 eexists. cbv zeta. split; [check_success|].
    split; [vm_compute; reflexivity|discriminate].
Qed.
Print Assumptions C49_reorder_refuted.
(** Two RGB pixels: the first one comes out as alpha, the red of the next pixel, its blue and green. *)
Example C49_reorder_example :
  let rgb := Image Rgb CsRgb 1 None in
  convert (converters X86) T64_debug 2 1 rgb ex_bgra [[1; 2; 3; 4; 5; 6]] (zeros [8]) =
    Ok Success (Mem [[1; 2; 3; 4; 5; 6]] [[3; 2; 1; 255; 6; 5; 4; 255]]) /\
  convert (converters X86) (big_endian T64_debug) 2 1 rgb ex_bgra [[1; 2; 3; 4; 5; 6]] (zeros [8]) =
    Ok Success (Mem [[1; 2; 3; 4; 5; 6]] [[255; 4; 3; 2; 6; 5; 4; 255]]).
Proof. split; vm_compute; reflexivity. Qed.
