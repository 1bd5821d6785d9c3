(** How often the bytes of the destination are written (C62). *)
From Coq Require Import ZArith List Bool Lia.
Import ListNotations.
From Verif Require Import Base Fmt Wrappers CpuInfo Spec SetSpec ApiSpec AcceptSpec Lib Sets Api PropsConvert PropsPixel PropsTrace
  Trace TraceSpec WriteSpec CountRunFacts.
Open Scope Z_scope.

(** C62: a successful call writes each byte of the destination image once, and makes no other write:
    as many bytes are written as the image has. The exception is NV12 to RGB with AVX2. *)
Theorem C62_written_once : forall set T w h src dst sb db m,
  successful_call (converters set) T w h src dst sb db m -> ~ overlapping set src dst ->
  let l := accesses (converters set) T w h src dst sb db in
  bytes_written l = image_bytes dst w h /\
  (forall n a, in_image dst w h n a -> times_written l n a = 1%nat) /\
  (forall n a, ~ in_image dst w h n a -> times_written l n a = 0%nat).
Proof. exact rust_once. Qed.
Print Assumptions C62_written_once.
Theorem C62_written_once_c : forall set T w h src dst sb db error,
  c_call set T w h src dst sb db -> ~ overlapping set src dst ->
  let l := c_accesses (converters set) T w h src dst sb db error in
  bytes_written l = image_bytes dst w h /\
  (forall n a, in_image dst w h n a -> times_written l n a = 1%nat) /\
  (forall n a, ~ in_image dst w h n a -> times_written l n a = 0%nat).
Proof. exact c_once. Qed.
Print Assumptions C62_written_once_c.
(** Two rows of five pixels, with a byte between the rows of the first plane. *)
Definition ex_once_i444 : image := Image I444 Bt601 3 (Some [6; 5; 5]).
Definition ex_once_pixels : list (list Z) := [ramp 40].
Example C62_written_example : exists m,
  successful_call (converters CpuInfo.Sse2) T64_debug 5 2 ex_bgra ex_once_i444 ex_once_pixels (zeros [11; 10; 10]) m /\
  ~ overlapping CpuInfo.Sse2 ex_bgra ex_once_i444 /\
  let l := accesses (converters CpuInfo.Sse2) T64_debug 5 2 ex_bgra ex_once_i444 ex_once_pixels (zeros [11; 10; 10]) in
  bytes_written l = 30 /\ map (times_written l 0) [0; 1; 2; 3; 4; 5; 6; 7; 8; 9; 10; 11] = [1; 1; 1; 1; 1; 0; 1; 1; 1; 1; 1; 0]%nat.
Proof.
  eexists. split; [check_success|]. split; [intros (E & _); discriminate E|]. cbv zeta. split; vm_compute; reflexivity.
Qed.

(** C62: the exception is one: with AVX2, from NV12 to RGB, some bytes are written twice and more
    bytes are written than the image has. *)
Definition ex_twice_nv12 : image := Image Nv12 Bt601 2 None.
Theorem C62_written_once_avx2_refuted : exists T w h src dst sb db m n a,
  successful_call (converters CpuInfo.Avx2) T w h src dst sb db m /\
  let l := accesses (converters CpuInfo.Avx2) T w h src dst sb db in
  in_image dst w h n a /\ times_written l n a = 2%nat /\ image_bytes dst w h < bytes_written l.
Proof.
  exists T64_debug, 32, 2, ex_twice_nv12, ex_rgb, (zeros [64; 32]), (zeros [192]). eexists. exists 0%nat, 20.
  split; [check_success|]. cbv zeta. split.
  - exists (Geom 0 0 96 2 96), 0, 20. cbn. repeat split; try lia. left. reflexivity.
  - split; vm_compute; reflexivity.
Qed.
Print Assumptions C62_written_once_avx2_refuted.

(** C62: where a byte is written twice it gets the same value both times. *)
Theorem C62_one_value : forall set T w h src dst sb db m,
  successful_call (converters set) T w h src dst sb db m ->
  forall n a v v', In (Writes (Dst n) a v) (accesses (converters set) T w h src dst sb db) ->
  In (Writes (Dst n) a v') (accesses (converters set) T w h src dst sb db) -> v = v'.
Proof. exact rust_one_value. Qed.
Print Assumptions C62_one_value.
Theorem C62_one_value_c : forall set T w h src dst sb db error,
  c_call set T w h src dst sb db ->
  forall n a v v', In (Writes (Dst n) a v) (c_accesses (converters set) T w h src dst sb db error) ->
  In (Writes (Dst n) a v') (c_accesses (converters set) T w h src dst sb db error) -> v = v'.
Proof. exact c_one_value. Qed.
Print Assumptions C62_one_value_c.

(** C62: so somebody who looks at the destination during the call, after whichever access, finds at
    every position the byte from before the call or the one from after it, never a third one:
    whatever has been written there by then is what stays. *)
Theorem C62_no_third_value : forall set T w h src dst sb db m,
  successful_call (converters set) T w h src dst sb db m ->
  forall l l', accesses (converters set) T w h src dst sb db = l ++ l' ->
  forall n a v, last_written l n a = Some v -> v = nth (Z.to_nat a) (nth n (dsts m) []) 0.
Proof. exact rust_two_values. Qed.
Print Assumptions C62_no_third_value.
Theorem C62_no_third_value_c : forall set T w h src dst sb db error r m,
  c_call set T w h src dst sb db ->
  c_convert (converters set) T w h src dst sb db error = Ok r m ->
  forall l l', c_accesses (converters set) T w h src dst sb db error = l ++ l' ->
  forall n a v, last_written l n a = Some v -> v = nth (Z.to_nat a) (nth n (dsts m) []) 0.
Proof. exact c_two_values. Qed.
Print Assumptions C62_no_third_value_c.
(** The picture of [C59_accesses_example] after four of its six accesses: the first plane is done. *)
Example C62_no_third_example :
  let l := accesses (converters X86) T64_debug 1 1 ex_bgra ex_i444 [[10; 20; 30; 255]] [[7]; [8]; [9]] in
  l = firstn 4 l ++ skipn 4 l /\ last_written (firstn 4 l) 0 0 = Some 35 /\ last_written (firstn 4 l) 1 0 = None.
Proof. cbv zeta. rewrite C59_accesses_example. repeat split. Qed.
(** Thirty-two pixels with AVX2 from NV12 to RGB: byte 20 is written, then byte 0, then byte 20 again. *)
Example C62_twice_example :
  let l := accesses (converters CpuInfo.Avx2) T64_debug 32 2 ex_twice_nv12 ex_rgb [ramp 64; ramp 32] (zeros [192]) in
  l = firstn 68 l ++ [Writes (Dst 0) 20 255] ++ firstn 47 (skipn 69 l) ++ [Writes (Dst 0) 20 255] ++ skipn 117 l /\
  nth_error l 96 = Some (Writes (Dst 0) 0 0).
Proof. split; vm_compute; reflexivity. Qed.
Example C62_c_example : c_call CpuInfo.Sse2 T64_debug 2 2 ex_bgra ex_wide_i444 ex_pixels (zeros [7; 6; 4]) /\
  ~ overlapping CpuInfo.Sse2 ex_bgra ex_wide_i444.
Proof. split; [exact C59_written_c_example|intros (E & _); discriminate E]. Qed.
