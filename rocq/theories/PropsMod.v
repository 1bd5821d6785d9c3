(** Theorems about products that do not fit in a machine word. *)
From Coq Require Import ZArith List Bool Lia.
Import ListNotations.
From Verif Require Import Base Fmt CpuInfo Lib Sets Spec SetSpec ApiSpec Api
  PropsConvert PropsPixel AcceptSpec ModSpec ModFacts.
Open Scope Z_scope.

(** C37, exactly. A debug build stops with an overflow if and only if a row of an RGB image (or
    the luma plane of one-plane NV12) has 2^32 (2^64) bytes or more; a release build then goes on
    with the sizes modulo 2^32 (2^64), and these alone decide which buffers are refused. *)
Theorem C37_exactly : forall set T w h src dst sb db, is_target T ->
  well_formed (usz T) w h src dst sb db -> 0 < w -> 0 < h ->
  valid_image src w h -> valid_image dst w h -> supported (i_pf src) (i_pf dst) = true ->
  let r := convert (converters set) T w h src dst sb db in
  let large := too_large (usz T) src w h \/ too_large (usz T) dst w h in
  (checked T = true -> large -> enough_planes src sb -> enough_planes dst db -> r = Fault Overflow) /\
  ((checked T = true -> ~ large) ->
   (r = Ok (Err NotEnoughData) (Mem sb db) <-> ~ buffers_taken_mod (usz T) src dst w h sb db)).
Proof. exact wrapped_answer. Qed.
Print Assumptions C37_exactly.

(** 2^30 BGRA pixels have 2^32 bytes: the wasm32 or i686 release build takes the image to fit in
    an empty buffer, and the debug build stops. One pixel more has 4 bytes modulo 2^32. *)
Definition ex_wide : image := Image I444 Bt601 3 (Some [1; 1; 1]).
Example C37_exactly_example set :
  well_formed (2 ^ 32) (2 ^ 30) 1 ex_wide ex_bgra [[0]; [0]; [0]] [[]] /\
  too_large (2 ^ 32) ex_bgra (2 ^ 30) 1 /\ ~ too_large (2 ^ 32) ex_bgra (2 ^ 30 - 1) 1 /\
  buffers_taken_mod (2 ^ 32) ex_wide ex_bgra (2 ^ 30) 1 [[0]; [0]; [0]] [[]] /\
  ~ buffers_taken_mod (2 ^ 32) ex_wide ex_bgra (2 ^ 30 + 1) 1 [[0]; [0]; [0]] [[1; 2; 3]] /\
  convert (converters set) T32_debug (2 ^ 30) 1 ex_wide ex_bgra [[0]; [0]; [0]] [[]] = Fault Overflow /\
  convert (converters set) T32_release (2 ^ 30 + 1) 1 ex_wide ex_bgra [[0]; [0]; [0]] [[1; 2; 3]] =
    Ok (Err NotEnoughData) (Mem [[0]; [0]; [0]] [[1; 2; 3]]).
Proof.
  split; [check_call|]. split; [left; vm_compute; discriminate|].
  split; [intros [H|(H & _)]; [revert H; vm_compute; intros H; apply H; reflexivity|discriminate]|].
  split; [unfold buffers_taken_mod, enough_planes, image_taken_mod, image_taken, plane_taken; vm_compute;
          repeat (first [discriminate|split|constructor])|].
  split; [unfold buffers_taken_mod; cbv zeta; intros (_ & _ & _ & H); revert H; vm_compute; intros H; apply H; reflexivity|].
  destruct set; split; lazy; reflexivity.
Qed.

(** C46 on every target, 32-bit ones included: without such large rows, exactly these buffers are
    refused. *)
Theorem C46_exact_any_word : forall set T w h src dst sb db, is_target T ->
  well_formed (usz T) w h src dst sb db -> 0 < w -> 0 < h ->
  ~ too_large (usz T) src w h -> ~ too_large (usz T) dst w h ->
  valid_image src w h -> valid_image dst w h -> supported (i_pf src) (i_pf dst) = true ->
  (convert (converters set) T w h src dst sb db = Ok (Err NotEnoughData) (Mem sb db) <->
   ~ buffers_taken src dst w h sb db).
Proof. exact exact_any_word. Qed.
Print Assumptions C46_exact_any_word.
Example C46_exact_any_word_example set :
  well_formed (2 ^ 32) 1 3 ex_short_bgra ex_i444 [repeat 0 23] (zeros [3; 3; 3]) /\
  ~ too_large (2 ^ 32) ex_short_bgra 1 3 /\ ~ too_large (2 ^ 32) ex_i444 1 3 /\
  convert (converters set) T32_release 1 3 ex_short_bgra ex_i444 [repeat 0 23] (zeros [3; 3; 3]) =
    Ok (Err NotEnoughData) (Mem [repeat 0 23] (zeros [3; 3; 3])).
Proof.
  split; [check_call|].
  split; [intros [H|(H & _)]; [revert H; vm_compute; intros H; apply H; reflexivity|discriminate]|].
  split; [intros [H|(H & _)]; [revert H; vm_compute; intros H; apply H; reflexivity|discriminate]|].
  destruct set; vm_compute; reflexivity.
Qed.
