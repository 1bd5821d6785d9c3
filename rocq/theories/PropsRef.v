(** [convert_image] is a reference implementation of some forty lines. *)
From Coq Require Import ZArith List Bool Lia.
Import ListNotations.
From Verif Require Import Base Fmt CpuInfo Lib Sets Spec SimdSpec SetSpec ApiSpec Api AcceptSpec ReachSpec RefSpec RefFacts
  PropsConvert.
Open Scope Z_scope.

(** C51: for every well-formed call on images with their rows apart, the answer and every byte of
    every buffer afterwards are those of [reference]: no matter whether the call is refused,
    empty or successful. The destination and what is read of the source ([read_in]) have to be
    inside of the buffers if the code accepts them (it does not check that well enough: C01, C02). *)
Theorem C51_reference : forall set T w h src dst sb db, is_target T -> well_formed (usz T) w h src dst sb db ->
  rows_apart src w h -> rows_apart dst w h ->
  extent_below (usz T / 2 - 1) src w h -> extent_below (usz T / 2 - 1) dst w h ->
  let A := set_cols set (i_pf src) (i_pf dst) w in
  let '(a, after) := reference A w h src dst sb db in
  (a = Done -> 0 < w -> 0 < h -> image_in 0 dst w h db /\ read_in set src dst w h sb) ->
  convert (converters set) T w h src dst sb db = Ok (outcome_of a) (Mem sb after).
Proof. exact reference_same. Qed.
Print Assumptions C51_reference.

(** C51: calls that follow the documentation, in Rust and in C. *)
Theorem C51_documented : forall set T w h src dst sb db error, is_target T ->
  documented_call (usz T) w h src dst sb db -> room set src dst w h sb ->
  let after := converted_buffers (set_cols set (i_pf src) (i_pf dst) w) src dst w h sb db in
  convert (converters set) T w h src dst sb db = Ok Success (Mem sb after) /\
  c_convert (converters set) T w h src dst sb db error = Ok (C_Ok, error) (Mem sb after).
Proof. exact reference_documented. Qed.
Print Assumptions C51_documented.

(** BGRA 2x2 to NV12 in one buffer with stride 3: padding and the bytes after the image keep
    their value 7. *)
Definition ex_nv12_padded : image := Image Nv12 Bt601 1 (Some [3]).
Example C51_example set :
  reference (set_cols set Bgra Nv12 2) 2 2 ex_bgra ex_nv12_padded [map (fun i => 11 * i) (zrange 0 16)] [repeat 7 10] =
    (Done, [[27; 65; 7; 103; 141; 7; 122; 134; 7; 7]]) /\
  convert (converters set) T64_debug 2 2 ex_bgra ex_nv12_padded [map (fun i => 11 * i) (zrange 0 16)] [repeat 7 10] =
    Ok Success (Mem [map (fun i => 11 * i) (zrange 0 16)] [[27; 65; 7; 103; 141; 7; 122; 134; 7; 7]]).
Proof. destruct set; split; vm_compute; reflexivity. Qed.
Example C51_refused set :
  reference (set_cols set Bgra Nv12 2) 2 2 ex_bgra ex_nv12_padded [repeat 0 16] [repeat 7 8] = (Not_enough_data, [repeat 7 8]).
Proof. destruct set; vm_compute; reflexivity. Qed.

(** ** Machine words of 32 and 64 bits *)

(** C37, the part that holds: on images inside of their buffers (with the spare bytes after a BGR
    source on SSE2 and AVX2), 32-bit and 64-bit machines, debug and release builds give the same
    answer and the same bytes in all buffers. Missing: images whose row size wraps around, which
    cannot be inside of a buffer ([C37_refuted]). *)
Theorem C37_same_result_partial : forall set T T' w h src dst sb db, is_target T -> is_target T' ->
  well_formed (2 ^ 32) w h src dst sb db -> rows_apart src w h -> rows_apart dst w h ->
  image_in 0 dst w h db -> room set src dst w h sb ->
  convert (converters set) T w h src dst sb db = convert (converters set) T' w h src dst sb db.
Proof. exact same_words. Qed.
Print Assumptions C37_same_result_partial.
Example C37_same_example set : let sb := [map (fun i => 11 * i) (zrange 0 16)] in
  well_formed (2 ^ 32) 2 2 ex_bgra ex_nv12_padded sb [repeat 7 10] /\
  rows_apart ex_bgra 2 2 /\ rows_apart ex_nv12_padded 2 2 /\
  image_in 0 ex_nv12_padded 2 2 [repeat 7 10] /\ room set ex_bgra ex_nv12_padded 2 2 sb /\
  convert (converters set) T32_release 2 2 ex_bgra ex_nv12_padded sb [repeat 7 10] =
    Ok Success (Mem sb [[27; 65; 7; 103; 141; 7; 122; 134; 7; 7]]).
Proof.
  cbv zeta. split.
  { unfold well_formed, strides_below, buffers_ok.
    repeat (first [ lia | reflexivity | discriminate | congruence | progress cbn | split | constructor | intros ]). }
  repeat (split; [destruct set; cbv; repeat (first [ reflexivity | discriminate | congruence | split | constructor | intros ])|]).
  destruct set; vm_compute; reflexivity.
Qed.
