(** Which bytes a conversion reads (C64). *)
From Coq Require Import ZArith List Bool Lia.
Import ListNotations.
From Verif Require Import Base Fmt Wrappers CpuInfo Spec SetSpec ApiSpec AcceptSpec Lib Sets Api PropsConvert PropsPixel PropsTrace
  Trace TraceSpec ReadSpec ReadRunFacts.
Open Scope Z_scope.

(** C64: a successful call reads bytes of the source image only, or the few bytes after the end of its
    rows given by [over_read] and [spill] ([readable]); it never reads the destination. *)
Theorem C64_reads_source : forall set T w h src dst sb db m,
  successful_call (converters set) T w h src dst sb db m ->
  forall p a, In (Reads p a) (accesses (converters set) T w h src dst sb db) ->
  exists n, p = Src n /\ readable set src dst w h n a.
Proof. intros set T w h src dst sb db m H. exact (proj1 (call_sees set T w h src dst sb db m H)). Qed.
Print Assumptions C64_reads_source.
Theorem C64_reads_source_c : forall set T w h src dst sb db error,
  c_call set T w h src dst sb db ->
  forall p a, In (Reads p a) (c_accesses (converters set) T w h src dst sb db error) ->
  exists n, p = Src n /\ readable set src dst w h n a.
Proof. intros set T w h src dst sb db error H. exact (proj1 (c_call_sees set T w h src dst sb db error H)). Qed.
Print Assumptions C64_reads_source_c.

(** C64: except from BGR to YCbCr with SSE2 or AVX2 and from RGB to BGRA, only bytes of the image. *)
Theorem C64_reads_image : forall set T w h src dst sb db m,
  successful_call (converters set) T w h src dst sb db m -> no_spill set (i_pf src) (i_pf dst) ->
  forall p a, In (Reads p a) (accesses (converters set) T w h src dst sb db) ->
  exists n, p = Src n /\ in_image src w h n a.
Proof. exact call_inside. Qed.
Print Assumptions C64_reads_image.
Theorem C64_reads_image_c : forall set T w h src dst sb db error,
  c_call set T w h src dst sb db -> no_spill set (i_pf src) (i_pf dst) ->
  forall p a, In (Reads p a) (c_accesses (converters set) T w h src dst sb db error) ->
  exists n, p = Src n /\ in_image src w h n a.
Proof. exact c_call_inside. Qed.
Print Assumptions C64_reads_image_c.

(** C64: from RGB to BGRA as well, when there is no padding between the rows. *)
Theorem C64_reads_tight : forall set T w h src dst sb db m,
  successful_call (converters set) T w h src dst sb db m -> i_pf src = Rgb -> eff_stride (i_strides src) 0 (3 * w) = 3 * w ->
  forall p a, In (Reads p a) (accesses (converters set) T w h src dst sb db) ->
  exists n, p = Src n /\ in_image src w h n a.
Proof. exact call_tight. Qed.
Print Assumptions C64_reads_tight.
Theorem C64_reads_tight_c : forall set T w h src dst sb db error,
  c_call set T w h src dst sb db -> i_pf src = Rgb -> eff_stride (i_strides src) 0 (3 * w) = 3 * w ->
  forall p a, In (Reads p a) (c_accesses (converters set) T w h src dst sb db error) ->
  exists n, p = Src n /\ in_image src w h n a.
Proof. exact c_call_tight. Qed.
Print Assumptions C64_reads_tight_c.

(** C64: the portable code stays between the beginning of a row and the beginning of the next one. *)
Theorem C64_reads_lines : forall T w h src dst sb db m,
  successful_call (converters X86) T w h src dst sb db m ->
  forall p a, In (Reads p a) (accesses (converters X86) T w h src dst sb db) ->
  exists n g y j, p = Src n /\ In g (image_planes src w h) /\ n = g_buf g /\
    0 <= y < g_rows g /\ 0 <= j < g_stride g /\ a = g_base g + y * g_stride g + j.
Proof. exact call_x86. Qed.
Print Assumptions C64_reads_lines.

(** The positions of buffer [n] that [l] reads, in order. *)
Definition read_at (n : nat) (l : list access) : list Z :=
  flat_map (fun x => match x with Reads (Src k) a => if Nat.eqb k n then [a] else [] | _ => [] end) l.
Definition ex_read_18 : list (list Z) := [ramp 18].
Definition ex_read_50 : list (list Z) := [ramp 50].
Definition ex_read_80 : list (list Z) := [ramp 80].
(** Two rows of four NV12 pixels, with two bytes between the rows: bytes 4, 5, 10, 11, 16 and 17 are not read. *)
Definition ex_read_nv12 : image := Image Nv12 Bt601 1 (Some [6]).
Example C64_reads_example : exists m,
  successful_call (converters X86) T64_debug 4 2 ex_read_nv12 ex_bgra ex_read_18 (zeros [32]) m /\
  no_spill X86 (i_pf ex_read_nv12) (i_pf ex_bgra) /\
  let l := read_at 0 (accesses (converters X86) T64_debug 4 2 ex_read_nv12 ex_bgra ex_read_18 (zeros [32])) in
  map (fun a => existsb (Z.eqb a) l) (map Z.of_nat (seq 0 18)) =
    [true; true; true; true; false; false; true; true; true; true; false; false; true; true; true; true; false; false].
Proof.
  eexists. split; [check_success|]. split; [split; [discriminate|intros [E _]; discriminate E]|]. vm_compute. reflexivity.
Qed.

(** C64: both exceptions are real. From RGB to BGRA the portable code reads two bytes after the end of
    the first row, which belong to no row of the image, and none after the last one. *)
Definition ex_read_rgb : image := Image Rgb CsRgb 1 (Some [26]).
Theorem C64_reads_image_rgb_refuted : exists T w h src dst sb db m a,
  successful_call (converters X86) T w h src dst sb db m /\ i_pf src = Rgb /\ i_pf dst = Bgra /\
  In (Reads (Src 0) a) (accesses (converters X86) T w h src dst sb db) /\ ~ in_image src w h 0 a.
Proof.
  exists T64_debug, 8, 2, ex_read_rgb, ex_bgra, ex_read_50, (zeros [64]). eexists. exists 25.
  split; [check_success|]. split; [reflexivity|]. split; [reflexivity|]. split.
  - assert (E : existsb (fun x => match x with Reads (Src 0) a => a =? 25 | _ => false end)
      (accesses (converters X86) T64_debug 8 2 ex_read_rgb ex_bgra ex_read_50 (zeros [64])) = true) by (vm_compute; reflexivity).
    apply existsb_exists in E. destruct E as (x & I & Q). destruct x as [[[|n]|n] a|p a v]; try discriminate Q.
    apply Z.eqb_eq in Q. subst a. exact I.
  - intros (g & y & j & [<-|[]] & _ & Y & J & A). cbn [g_rows g_row g_base g_stride] in *. 
    change (eff_stride (i_strides ex_read_rgb) 0 (bytes_per_pixel (i_pf ex_read_rgb) * 8)) with 26 in A. change (bytes_per_pixel (i_pf ex_read_rgb) * 8) with 24 in J. lia.
Qed.
Print Assumptions C64_reads_image_rgb_refuted.
(** From BGR to NV12 with SSE2: four bytes after the end of both rows. *)
Definition ex_read_bgr : image := Image Bgr CsRgb 1 (Some [40]).
Definition ex_read_dst : image := Image Nv12 Bt601 2 None.
Theorem C64_reads_image_bgr_refuted : exists T w h src dst sb db m a,
  successful_call (converters CpuInfo.Sse2) T w h src dst sb db m /\ i_pf src = Bgr /\ i_pf dst = Nv12 /\
  In (Reads (Src 0) a) (accesses (converters CpuInfo.Sse2) T w h src dst sb db) /\ ~ in_image src w h 0 a.
Proof.
  exists T64_debug, 12, 2, ex_read_bgr, ex_read_dst, ex_read_80, (zeros [24; 12]). eexists. exists 39.
  split; [check_success|]. split; [reflexivity|]. split; [reflexivity|]. split.
  - assert (E : existsb (fun x => match x with Reads (Src 0) a => a =? 39 | _ => false end)
      (accesses (converters CpuInfo.Sse2) T64_debug 12 2 ex_read_bgr ex_read_dst ex_read_80 (zeros [24; 12])) = true) by (vm_compute; reflexivity).
    apply existsb_exists in E. destruct E as (x & I & Q). destruct x as [[[|n]|n] a|p a v]; try discriminate Q.
    apply Z.eqb_eq in Q. subst a. exact I.
  - intros (g & y & j & [<-|[]] & _ & Y & J & A). cbn [g_rows g_row g_base g_stride] in *.
    change (eff_stride (i_strides ex_read_bgr) 0 (bytes_per_pixel (i_pf ex_read_bgr) * 12)) with 40 in A. change (bytes_per_pixel (i_pf ex_read_bgr) * 12) with 36 in J. lia.
Qed.
Print Assumptions C64_reads_image_bgr_refuted.

(** C64: a debug build and a release build for the same target make the same accesses, in the same
    order and with the same values. *)
Theorem C64_same_build : forall set T T' w h src dst sb db m,
  successful_call (converters set) T w h src dst sb db m -> usz T' = usz T -> big T' = big T ->
  accesses (converters set) T' w h src dst sb db = accesses (converters set) T w h src dst sb db.
Proof. intros set T T' w h src dst sb db m H. exact (proj2 (call_sees set T w h src dst sb db m H) T'). Qed.
Print Assumptions C64_same_build.
Theorem C64_same_build_c : forall set T T' w h src dst sb db error,
  c_call set T w h src dst sb db -> usz T' = usz T -> big T' = big T ->
  c_accesses (converters set) T' w h src dst sb db error = c_accesses (converters set) T w h src dst sb db error.
Proof. intros set T T' w h src dst sb db error H. exact (proj2 (c_call_sees set T w h src dst sb db error H) T'). Qed.
Print Assumptions C64_same_build_c.
(** Twenty-four columns of RGB with SSE2, without padding and with one byte of it: sixteen columns are
    converted in registers, eight by the portable code, which takes the two bytes after the first row. *)
Definition ex_read_tight : image := Image Rgb CsRgb 1 None.
Definition ex_read_144 : list (list Z) := [ramp 144].
Example C64_tight_example : exists m,
  successful_call (converters CpuInfo.Sse2) T64_debug 24 2 ex_read_tight ex_bgra ex_read_144 (zeros [192]) m /\
  eff_stride (i_strides ex_read_tight) 0 (3 * 24) = 3 * 24 /\
  spill CpuInfo.Sse2 Rgb Bgra 24 72 = 2 /\ spill X86 Rgb Bgra 24 72 = 0 /\ spill X86 Rgb Bgra 24 73 = 1 /\ spill X86 Rgb Bgra 23 73 = 1 /\
  let count := fun set => length (filter (Z.eqb 73) (read_at 0 (accesses (converters set) T64_debug 24 2 ex_read_tight ex_bgra ex_read_144 (zeros [192])))) in
  count CpuInfo.Sse2 = 2%nat /\ count X86 = 1%nat.
Proof. eexists. split; [check_success|]. repeat split; vm_compute; reflexivity. Qed.
Example C64_same_build_example : exists m,
  successful_call (converters CpuInfo.Avx2) T64_release 8 2 ex_read_rgb ex_bgra ex_read_50 (zeros [64]) m /\
  usz T64_debug = usz T64_release /\ big T64_debug = big T64_release /\
  length (accesses (converters CpuInfo.Avx2) T64_release 8 2 ex_read_rgb ex_bgra ex_read_50 (zeros [64])) = 127%nat.
Proof. eexists. split; [check_success|]. split; [reflexivity|]. split; [reflexivity|]. vm_compute. reflexivity. Qed.
Example C64_c_example : c_call CpuInfo.Sse2 T64_debug 2 2 ex_bgra ex_wide_i444 ex_pixels (zeros [7; 6; 4]) /\
  no_spill CpuInfo.Sse2 (i_pf ex_bgra) (i_pf ex_wide_i444).
Proof. split; [exact C59_written_c_example|]. split; [discriminate|intros [E _]; discriminate E]. Qed.
