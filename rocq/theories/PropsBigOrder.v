(** C49: what the re-orderings produce on a big-endian machine.  Companion of [C49_reorder_refuted]. *)
From Coq Require Import ZArith List Bool Lia.
Import ListNotations.
From Verif Require Import Base Fmt CpuInfo Lib Sets Spec SetSpec ApiSpec Api
  PropsConvert PropsPixel PropsEndian EndianSpec BigOrderSpec BigOrderFacts BigC.
Open Scope Z_scope.

(** C49: where a re-ordering succeeds, it succeeds on a big-endian machine as well; each byte of the picture
    there is the source byte (or 255) that [big_byte] names, whatever the contents, sizes and strides, and
    nothing else is written.  So also for the C function. *)
Theorem C49_reorder_exactly : forall T w h src dst sb db m,
  successful_call (converters X86) T w h src dst sb db m ->
  is_rgb (i_pf src) = true -> is_rgb (i_pf dst) = true ->
  (exists after, convert (converters X86) (big_endian T) w h src dst sb db = Ok Success (Mem sb after) /\
     big_reordered src dst w h sb db after) /\
  (forall error, exists after,
     c_convert (converters X86) (big_endian T) w h src dst sb db error = Ok (C_Ok, error) (Mem sb after) /\
     big_reordered src dst w h sb db after).
Proof. exact big_order. Qed.
Print Assumptions C49_reorder_exactly.
Example C49_reorder_exactly_example :
  Forall (fun '(spf, dpf, w, ss, sb, ds, db) =>
    let src := Image spf CsRgb 1 (Some [ss]) in let dst := Image dpf CsRgb 1 (Some [ds]) in
    (exists m, successful_call (converters X86) T64_debug w 2 src dst sb db m) /\
    exists after, convert (converters X86) (big_endian T64_debug) w 2 src dst sb db = Ok Success (Mem sb after) /\
      map (fun j => sample after (plane_of dst w 2 0) 0 j) [0; 1; 2; 3; 4; 5; 6; 7] =
      map (big_byte spf dpf w (ss - bytes_per_pixel spf * w) false (sample sb (plane_of src w 2 0) 0)) [0; 1; 2; 3; 4; 5; 6; 7])
  [(Rgb, Bgra, 9, 28, ex_row 56, 40, zeros [80]); (Bgr, Rgb, 9, 27, ex_row 54, 30, zeros [60]);
   (Bgra, Rgb, 8, 33, ex_row 66, 24, zeros [48])].
Proof.
  repeat apply Forall_cons; try apply Forall_nil; cbv zeta; (split; [eexists; check_success|]); eexists; (split; [vm_compute; reflexivity|vm_compute; reflexivity]).
Qed.

(** C49: the same for C programs: the byte order never decides between success, error and fault, and all
    but the wide re-orderings leave the same memory. *)
Theorem C49_c_same_outcome : forall T T' w h src dst sb db error, alike T T' ->
  0 <= w < 2 ^ 32 -> 0 <= h < 2 ^ 32 -> 0 <= i_planes src < 2 ^ 32 -> 0 <= i_planes dst < 2 ^ 32 ->
  i_planes src <= Z.of_nat (length sb) -> i_planes dst <= Z.of_nat (length db) ->
  same_outcome (c_convert (converters X86) T w h src dst sb db error) (c_convert (converters X86) T' w h src dst sb db error) /\
  (byte_wise src dst w ->
   c_convert (converters X86) T w h src dst sb db error = c_convert (converters X86) T' w h src dst sb db error).
Proof. exact (fun T T' w h src dst sb db error H => c_same T T' H w h src dst sb db error). Qed.
Print Assumptions C49_c_same_outcome.
Example C49_c_same_outcome_example :
  alike T64_debug (big_endian T64_debug) /\ byte_wise ex_bgra ex_nv12 2 /\
  c_convert (converters X86) (big_endian T64_debug) 2 2 ex_bgra ex_nv12 ex_pixels ex_nv12_buffers None =
    Ok (C_Ok, None) (Mem ex_pixels [[35; 99; 16; 235]; [139; 122; 77]]).
Proof. split; [split; reflexivity|]. split; [right; left; reflexivity|vm_compute; reflexivity]. Qed.
