(** No pixel of the source is ignored (C65). *)
From Coq Require Import ZArith List Bool Lia.
Import ListNotations.
From Verif Require Import Base Fmt Wrappers CpuInfo Spec SetSpec ApiSpec Lib Sets Api PropsConvert PropsPixel PropsTrace PropsRead
  DataSpec Trace TraceSpec EverySpec EveryFacts.
Open Scope Z_scope.

(** C65: a successful call reads every byte of the source image, except maybe the alpha of its pixels. *)
Theorem C65_reads_all : forall set T w h src dst sb db m n a,
  successful_call (converters set) T w h src dst sb db m -> colour_byte src w h n a ->
  In (Reads (Src n) a) (accesses (converters set) T w h src dst sb db).
Proof. exact call_reads_all. Qed.
Print Assumptions C65_reads_all.
Theorem C65_reads_all_c : forall set T w h src dst sb db error n a,
  c_call set T w h src dst sb db -> colour_byte src w h n a ->
  In (Reads (Src n) a) (c_accesses (converters set) T w h src dst sb db error).
Proof. exact c_call_reads_all. Qed.
Print Assumptions C65_reads_all_c.

(** C65: exactly these bytes decide the result. For each of them there are two source images of the
    layout of the call that differ in this byte only and have different results; two sources that
    differ in one other byte have the same result. *)
Theorem C65_exactly : forall set T w h src dst sb db m n a,
  successful_call (converters set) T w h src dst sb db m ->
  (colour_byte src w h n a <->
   exists sb1 sb2 m1 m2, differ_at n a sb1 sb2 /\
     successful_call (converters set) T w h src dst sb1 db m1 /\
     successful_call (converters set) T w h src dst sb2 db m2 /\ dsts m1 <> dsts m2).
Proof. exact call_exactly. Qed.
Print Assumptions C65_exactly.

(** The image of C64_reads_example: two rows of four NV12 pixels in one buffer, with two bytes between
    the rows. Byte 15, the red difference of the second block, is one that counts; byte 17 is not in the image. *)
Example C65_example :
  (exists m, successful_call (converters CpuInfo.Avx2) T64_debug 4 2 ex_read_nv12 ex_bgra ex_read_18 (zeros [32]) m) /\
  colour_byte ex_read_nv12 4 2 0 15 /\ ~ colour_byte ex_read_nv12 4 2 0 17.
Proof.
  split; [eexists; check_success|]. split.
  - exists (Geom 0 12 6 1 4), 0, 3. split; [right; left; reflexivity|]. cbn [g_buf g_rows g_row g_base g_stride]. repeat split; lia.
  - intros (g & y & j & I & _ & Y & J & A & _). change (image_planes ex_read_nv12 4 2) with [Geom 0 0 6 2 4; Geom 0 12 6 1 4] in I.
    destruct I as [<-|[<-|[]]]; cbn [g_buf g_rows g_row g_base g_stride] in *; lia.
Qed.
(** The alpha of a BGRA pixel is no colour byte: the portable code does not read it, and AVX2 does
    when it converts eight pixels at once. *)
Example C65_alpha_example :
  let rd set := existsb (Z.eqb 3) (read_at 0 (accesses (converters set) T64_debug 8 2 ex_bgra ex_nv12 [repeat 7 64] (zeros [16; 8]))) in
  (exists m, successful_call (converters CpuInfo.Avx2) T64_debug 8 2 ex_bgra ex_nv12 [repeat 7 64] (zeros [16; 8]) m) /\
  (exists m, successful_call (converters X86) T64_debug 8 2 ex_bgra ex_nv12 [repeat 7 64] (zeros [16; 8]) m) /\
  rd X86 = false /\ rd CpuInfo.Avx2 = true /\ ~ colour_byte ex_bgra 8 2 0 3 /\ colour_byte ex_bgra 8 2 0 2.
Proof.
  cbv zeta. split; [eexists; check_success|]. split; [eexists; check_success|].
  split; [vm_compute; reflexivity|]. split; [vm_compute; reflexivity|].
  change (colour_byte ex_bgra 8 2) with (fun n a => exists g y j, In g [Geom 0 0 32 2 32] /\ n = g_buf g /\ 0 <= y < g_rows g /\ 0 <= j < g_row g /\
                a = g_base g + y * g_stride g + j /\ is_alpha Bgra (j mod 4) = false). cbv beta. split.
  - intros (g & y & j & [<-|[]] & _ & Y & J & A & Al). cbn [g_buf g_rows g_row g_base g_stride] in *.
    assert (E : j = 3) by lia. rewrite E in Al. discriminate Al.
  - exists (Geom 0 0 32 2 32), 0, 2. split; [left; reflexivity|]. cbn [g_buf g_rows g_row g_base g_stride]. repeat split; lia.
Qed.
Example C65_c_example : c_call CpuInfo.Sse2 T64_debug 2 2 ex_bgra ex_wide_i444 ex_pixels (zeros [7; 6; 4]) /\ colour_byte ex_bgra 2 2 0 14.
Proof.
  split; [exact C59_written_c_example|]. exists (Geom 0 0 8 2 8), 1, 6. split; [left; reflexivity|].
  cbn [g_buf g_rows g_row g_base g_stride]. repeat split; lia.
Qed.
