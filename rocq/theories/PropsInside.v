(** Exactly which calls stay inside of the buffers (C01, C02, C47), for every instruction set and
    every kind of stride. *)
From Coq Require Import ZArith List Bool.
Import ListNotations.
From Verif Require Import Base Fmt CpuInfo Lib Spec SimdSpec SetSpec ApiSpec Api Sets AcceptSpec ReachSpec InsideFacts PropsConvert PropsPixel PropsMore.
Open Scope Z_scope.

(** C02, and C01 for successful calls: whatever the strides, if [convert_image] returns Ok then
    the destination image is inside of its buffers and so is everything that was read of the
    source: the image, with the bytes after a BGR image that registers cover, and without the
    alpha of the very last pixel of a BGRA image where no register covers it ([last_read]).
    (Rows that do not overlap; images that could be inside of some slices, that is, whose planes
    end at isize::MAX at the latest.) *)
Theorem C02_success_inside : forall set T, is_target T -> forall w h src dst sb db,
  well_formed (usz T) w h src dst sb db -> 0 < w -> 0 < h ->
  rows_apart src w h -> rows_apart dst w h ->
  extent_below (usz T / 2 - 1) src w h -> extent_below (usz T / 2 - 1) dst w h ->
  forall m, convert (converters set) T w h src dst sb db = Ok Success m ->
  image_in 0 dst w h db /\ read_in set src dst w h sb.
Proof. exact success_read. Qed.
Print Assumptions C02_success_inside.

(** C01: exactly what happens to a call with a valid description of images whose rows do not
    overlap: either it is refused, or it converts the image inside of the buffers, or it reads or
    writes outside of them. It does the latter exactly if the buffers are accepted
    ([buffers_taken], C46) though the destination or what is read of the source ([read_in]) is
    not inside of them. No other fault (overflow, panic) is possible. *)
Theorem C01_exactly_inside : forall set T, is_target T -> forall w h src dst sb db,
  well_formed (usz T) w h src dst sb db -> 0 < w -> 0 < h ->
  rows_apart src w h -> rows_apart dst w h ->
  extent_below (usz T / 2 - 1) src w h -> extent_below (usz T / 2 - 1) dst w h ->
  valid_image src w h -> valid_image dst w h -> supported (i_pf src) (i_pf dst) = true ->
  let r := convert (converters set) T w h src dst sb db in
  (~ buffers_taken src dst w h sb db -> r = Ok (Err NotEnoughData) (Mem sb db)) /\
  (buffers_taken src dst w h sb db -> image_in 0 dst w h db -> read_in set src dst w h sb ->
   exists after, r = Ok Success (Mem sb after) /\
     converted (set_cols set (i_pf src) (i_pf dst) w) src dst w h sb db after) /\
  (buffers_taken src dst w h sb db -> ~ (image_in 0 dst w h db /\ read_in set src dst w h sb) ->
   r = Fault OOB_read \/ r = Fault OOB_write).
Proof. exact exact_cases. Qed.
Print Assumptions C01_exactly_inside.

(** 1x3 BGRA pixels, stride 16: the image ends at byte 36, and buffers of 24 bytes are accepted.
    Of 35 bytes only the last alpha is missing: no set reads it in a row of one pixel. *)
Example C01_exact_example set :
  let db := zeros [3; 3; 3] in
  well_formed (2 ^ 64) 1 3 ex_short_bgra ex_i444 [ramp 24] db /\
  rows_apart ex_short_bgra 1 3 /\ rows_apart ex_i444 1 3 /\
  extent_below (2 ^ 64 / 2 - 1) ex_short_bgra 1 3 /\ extent_below (2 ^ 64 / 2 - 1) ex_i444 1 3 /\
  valid_image ex_short_bgra 1 3 /\ valid_image ex_i444 1 3 /\
  buffers_taken ex_short_bgra ex_i444 1 3 [ramp 24] db /\
  ~ read_in set ex_short_bgra ex_i444 1 3 [ramp 24] /\
  convert (converters set) T64_debug 1 3 ex_short_bgra ex_i444 [ramp 24] db = Fault OOB_read /\
  convert (converters set) T64_debug 1 3 ex_short_bgra ex_i444 [ramp 34] db = Fault OOB_read /\
  exists m, convert (converters set) T64_debug 1 3 ex_short_bgra ex_i444 [ramp 35] db = Ok Success m.
Proof.
  cbv zeta. split; [check_call|].
  split; [repeat constructor; vm_compute; congruence|]. split; [repeat constructor; vm_compute; congruence|].
  split; [repeat constructor; vm_compute; congruence|]. split; [repeat constructor; vm_compute; congruence|].
  split; [repeat split; vm_compute; congruence|]. split; [repeat split; vm_compute; congruence|].
  split; [repeat split; repeat constructor; vm_compute; discriminate|].
  split; [intros H; pose proof (Forall_inv H) as G; destruct set; vm_compute in G; apply G; reflexivity|].
  destruct set; (split; [vm_compute; reflexivity|split; [vm_compute; reflexivity|eexists; vm_compute; reflexivity]]).
Qed.

(** Where the last alpha matters: 4x3 BGRA pixels with stride 32 end at byte 80. With one byte
    less, only the SSE2 code (4 pixels at a time) runs past the end. Re-ordering BGRA to RGB
    needs the byte if the width is a multiple of 8, on every set. *)
Definition ex_wide_bgra : image := Image Bgra CsRgb 1 (Some [32]).
Definition ex_tight_bgra : image := Image Bgra CsRgb 1 None.
Definition ex_tight_rgb : image := Image Rgb CsRgb 1 None.
Example C01_alpha_example set :
  read_in X86 ex_wide_bgra ex_i444 4 3 [ramp 79] /\ ~ read_in CpuInfo.Sse2 ex_wide_bgra ex_i444 4 3 [ramp 79] /\
  buffers_taken ex_wide_bgra ex_i444 4 3 [ramp 79] (zeros [12; 12; 12]) /\
  (convert (converters set) T64_debug 4 3 ex_wide_bgra ex_i444 [ramp 79] (zeros [12; 12; 12]) = Fault OOB_read <-> set = CpuInfo.Sse2) /\
  convert (converters set) T64_debug 8 2 ex_tight_bgra ex_tight_rgb [ramp 63] (zeros [48]) = Fault OOB_read /\
  exists m, convert (converters set) T64_debug 7 2 ex_tight_bgra ex_tight_rgb [ramp 55] (zeros [42]) = Ok Success m.
Proof.
  split; [repeat constructor; vm_compute; congruence|].
  split; [intros H; pose proof (Forall_inv H) as G; vm_compute in G; apply G; reflexivity|].
  split; [repeat split; repeat constructor; vm_compute; discriminate|].
  destruct set; (split; [split; [intros E; try reflexivity; exfalso; vm_compute in E; discriminate E|intros E; try discriminate E; vm_compute; reflexivity]|]);
    (split; [vm_compute; reflexivity|eexists; vm_compute; reflexivity]).
Qed.

(** C47: the same for the C function, whose slices are as long as a slice can be: it never answers
    NotEnoughData, and it stays inside of the caller's memory exactly if the images are in it. *)
Theorem C47_exactly_inside : forall set T, is_target T -> forall w h src dst sb db,
  well_formed (usz T) w h src dst sb db -> 0 < w -> 0 < h ->
  rows_apart src w h -> rows_apart dst w h ->
  extent_below (usz T / 2 - 1 - over_read set (i_pf src) (i_pf dst) w) src w h -> extent_below (usz T / 2 - 1) dst w h ->
  valid_image src w h -> valid_image dst w h -> supported (i_pf src) (i_pf dst) = true ->
  enough_planes src sb -> enough_planes dst db ->
  stride_in (fun _ => usz T / 2 - 1) src w h -> stride_in (fun _ => usz T / 2 - 1) dst w h -> forall error,
  let r := c_convert (converters set) T w h src dst sb db error in
  (image_in 0 dst w h db -> read_in set src dst w h sb ->
   exists after, r = Ok (C_Ok, error) (Mem sb after) /\
     converted (set_cols set (i_pf src) (i_pf dst) w) src dst w h sb db after) /\
  (~ (image_in 0 dst w h db /\ read_in set src dst w h sb) -> r = Fault OOB_read \/ r = Fault OOB_write).
Proof. exact c_exact. Qed.
Print Assumptions C47_exactly_inside.
Example C47_exact_example set :
  let db := zeros [3; 3; 2] in
  well_formed (2 ^ 64) 1 3 ex_short_bgra ex_i444 [ramp 36] db /\
  extent_below (2 ^ 64 / 2 - 1 - over_read set (i_pf ex_short_bgra) (i_pf ex_i444) 1) ex_short_bgra 1 3 /\
  enough_planes ex_short_bgra [ramp 36] /\ enough_planes ex_i444 db /\
  stride_in (fun _ => 2 ^ 64 / 2 - 1) ex_short_bgra 1 3 /\ stride_in (fun _ => 2 ^ 64 / 2 - 1) ex_i444 1 3 /\
  ~ image_in 0 ex_i444 1 3 db /\
  c_convert (converters set) T64_debug 1 3 ex_short_bgra ex_i444 [ramp 36] db None = Fault OOB_write.
Proof.
  cbv zeta. split; [check_call|].
  split; [destruct set; repeat constructor; vm_compute; congruence|].
  split; [split; vm_compute; congruence|]. split; [split; [vm_compute; congruence|exact I]|].
  split; [repeat constructor; vm_compute; congruence|]. split; [repeat constructor; vm_compute; congruence|].
  split; [intros H; pose proof (Forall_inv (Forall_inv_tail (Forall_inv_tail H))) as G; vm_compute in G; apply G; reflexivity|].
  destruct set; vm_compute; reflexivity.
Qed.
