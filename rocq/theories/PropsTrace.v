(** Properties of the single accesses of a call (C59). *)
From Coq Require Import ZArith List Bool Lia.
Import ListNotations.
From Verif Require Import Base Fmt Wrappers CpuInfo Spec SetSpec ApiSpec AcceptSpec Lib Sets Api PropsConvert PropsPixel DataSpec
  Trace TraceSpec TraceFacts TraceRunFacts StillFacts.
Open Scope Z_scope.

(** C59: no call ever reads a destination buffer: not the bytes it is going to replace, not the
    bytes between the rows, and not what it has written itself. There is no hypothesis: this
    includes calls that fail, panic or run out of a buffer, and every target. *)
Theorem C59_destination_never_read : forall set T w h src dst sb db p a,
  In (Reads p a) (accesses (converters set) T w h src dst sb db) -> exists n, p = Src n.
Proof. exact rust_reads. Qed.
Print Assumptions C59_destination_never_read.
Theorem C59_destination_never_read_c : forall set T w h src dst sb db error p a,
  In (Reads p a) (c_accesses (converters set) T w h src dst sb db error) -> exists n, p = Src n.
Proof. exact c_reads. Qed.
Print Assumptions C59_destination_never_read_c.
Example C59_accesses_example :
  accesses (converters X86) T64_debug 1 1 ex_bgra ex_i444 [[10; 20; 30; 255]] [[7]; [8]; [9]] =
  [Reads (Src 0) 2; Reads (Src 0) 1; Reads (Src 0) 0; Writes (Dst 0) 0 35; Writes (Dst 1) 0 122; Writes (Dst 2) 0 133].
Proof. vm_compute. reflexivity. Qed.

(** C59: a call that writes or reads at all is one that converts an image: whatever comes back
    otherwise (an error, or success on an image without pixels) came from the arguments alone. *)
Theorem C59_no_access_without_conversion : forall set T w h src dst sb db o m,
  convert (converters set) T w h src dst sb db = Ok o m ->
  accesses (converters set) T w h src dst sb db <> [] -> o = Success /\ w <> 0 /\ h <> 0.
Proof. exact rust_access. Qed.
Print Assumptions C59_no_access_without_conversion.
Theorem C59_no_access_without_conversion_c : forall set T w h src dst sb db error r m,
  c_convert (converters set) T w h src dst sb db error = Ok r m ->
  c_accesses (converters set) T w h src dst sb db error <> [] -> r = (C_Ok, error) /\ w <> 0 /\ h <> 0.
Proof. exact c_access. Qed.
Print Assumptions C59_no_access_without_conversion_c.
Example C59_no_access_example :
  accesses (converters X86) T64_debug 2 2 ex_bgra ex_nv12 ex_pixels [[1; 2; 3]; [4; 5]] = [] /\
  accesses (converters X86) T64_debug 2 2 ex_bgra ex_nv12 ex_pixels ex_nv12_buffers <> [].
Proof. split; [vm_compute; reflexivity|]. intros E. apply (f_equal (@length access)) in E. vm_compute in E. discriminate E. Qed.

(** C59: what is recorded is everything. The sources stay as they are; every byte of the destination
    holds what was written there last, or what was there before; and nothing outside of the buffers
    is accessed. *)
Theorem C59_last_write_stays : forall set T w h src dst sb db o m,
  convert (converters set) T w h src dst sb db = Ok o m ->
  let l := accesses (converters set) T w h src dst sb db in
  srcs m = sb /\
  (forall p a v, In (Writes p a v) l -> exists n, p = Dst n /\ 0 <= a < buf_len db n) /\
  (forall n a, In (Reads (Src n) a) l -> 0 <= a < buf_len sb n) /\
  (forall n a, 0 <= a -> nth (Z.to_nat a) (nth n (dsts m) []) 0 =
     match last_written l n a with Some v => v | None => nth (Z.to_nat a) (nth n db []) 0 end).
Proof. exact rust_last. Qed.
Print Assumptions C59_last_write_stays.

(** C59: and bytes of the sources that are not read have no influence, on the result or on the
    course of the call; nor have the bytes of the destination. *)
Theorem C59_what_is_read_decides : forall set T w h src dst sb sb' db db',
  same_sizes sb sb' -> same_sizes db db' ->
  let l := accesses (converters set) T w h src dst sb db in
  (forall n a, In (Reads (Src n) a) l -> 0 <= a -> nth (Z.to_nat a) (nth n sb' []) 0 = nth (Z.to_nat a) (nth n sb []) 0) ->
  accesses (converters set) T w h src dst sb' db' = l /\
  same_course (convert (converters set) T w h src dst sb db) (convert (converters set) T w h src dst sb' db').
Proof. exact rust_reads_decide. Qed.
Print Assumptions C59_what_is_read_decides.
(** The alpha byte is not read. *)
Example C59_decides_example :
  let l := accesses (converters X86) T64_debug 1 1 ex_bgra ex_i444 [[10; 20; 30; 255]] [[7]; [8]; [9]] in
  (forall n a, In (Reads (Src n) a) l -> 0 <= a ->
     nth (Z.to_nat a) (nth n [[10; 20; 30; 0]] []) 0 = nth (Z.to_nat a) (nth n [[10; 20; 30; 255]] []) 0) /\
  accesses (converters X86) T64_debug 1 1 ex_bgra ex_i444 [[10; 20; 30; 0]] [[1]; [2]; [3]] = l.
Proof.
  cbv zeta. rewrite C59_accesses_example. split; [|vm_compute; reflexivity].
  intros n a [E|[E|[E|[E|[E|[E|[]]]]]]] _; try discriminate E; injection E as <- <-; reflexivity.
Qed.

(** C59: a successful call writes every byte of the destination image and no other byte, not even
    for a moment. *)
Theorem C59_written_exactly : forall set T w h src dst sb db m,
  successful_call (converters set) T w h src dst sb db m ->
  forall n a, (exists v, In (Writes (Dst n) a v) (accesses (converters set) T w h src dst sb db)) <-> in_image dst w h n a.
Proof. exact written_exactly. Qed.
Print Assumptions C59_written_exactly.
Theorem C59_written_exactly_c : forall set T w h src dst sb db error,
  c_call set T w h src dst sb db ->
  forall n a, (exists v, In (Writes (Dst n) a v) (c_accesses (converters set) T w h src dst sb db error)) <-> in_image dst w h n a.
Proof. exact c_written_exactly. Qed.
Print Assumptions C59_written_exactly_c.
Definition ex_wide_i444 : image := Image I444 Bt601 3 (Some [5; 4; 2]).
Example C59_written_example : exists m,
  successful_call (converters CpuInfo.Avx2) T64_debug 2 2 ex_bgra ex_wide_i444 ex_pixels (zeros [10; 8; 4]) m /\
  filter (fun x => match x with Writes (Dst 0) _ _ => true | _ => false end)
    (accesses (converters CpuInfo.Avx2) T64_debug 2 2 ex_bgra ex_wide_i444 ex_pixels (zeros [10; 8; 4])) =
  [Writes (Dst 0) 0 35; Writes (Dst 0) 1 99; Writes (Dst 0) 5 16; Writes (Dst 0) 6 235].
Proof. eexists. split; [check_success|vm_compute; reflexivity]. Qed.
Example C59_written_c_example : c_call Sse2 T64_debug 2 2 ex_bgra ex_wide_i444 ex_pixels (zeros [7; 6; 4]).
Proof.
  unfold c_call. split; [check_call|]. split; [check_call|]. split; [lia|]. split; [lia|].
  split; [repeat split; vm_compute; congruence|]. split; [repeat split; vm_compute; congruence|]. split; [reflexivity|].
  split; [split; [vm_compute; congruence|vm_compute; congruence || exact I]|]. split; [split; vm_compute; congruence|].
  split; [split; repeat constructor; vm_compute; congruence|]. split; [split; repeat constructor; vm_compute; congruence|].
  split; [repeat constructor; vm_compute; congruence|]. split; repeat constructor; vm_compute; congruence.
Qed.
