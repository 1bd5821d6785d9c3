(** Pictures of one colour (C70). *)
From Coq Require Import ZArith List Bool Lia.
Import ListNotations.
From Verif Require Import Base Fmt CpuInfo Lib Sets Spec SimdSpec SetSpec ApiSpec Api PropsConvert PropsPixel WhereSpec FlatSpec FlatFacts.
Open Scope Z_scope.

(** C70: a picture of one colour becomes a picture of one colour: with the portable code always, with the other
    instruction sets unless the exact chroma is half way between two values or blue reaches 512 before clamping.
    Missing: these colours, for which it is false ([C70_refuted]). *)
Theorem C70_flat_partial : forall set T w h src dst sb db m p,
  successful_call (converters set) T w h src dst sb db m -> 0 < w -> 0 < h -> flat src w h sb p ->
  set = X86 \/ (~ tie (cb_weights (i_cs dst)) 1 p /\ ~ tie (cr_weights (i_cs dst)) 1 p /\ blue_fits (i_cs src) p) ->
  exists q, flat dst w h (dsts m) q.
Proof. exact flat_flat. Qed.
Print Assumptions C70_flat_partial.

(** C70: to YCbCr, exactly: one colour comes out unless there is a tie and NEON does the first column with vector
    code and the last one without. *)
Theorem C70_encoded_exactly : forall set T w h src dst sb db m p,
  successful_call (converters set) T w h src dst sb db m ->
  is_rgb (i_pf src) = true -> is_rgb (i_pf dst) = false -> 0 < w -> 0 < h -> flat src w h sb p ->
  ((exists q, flat dst w h (dsts m) q) <->
   (tie (cb_weights (i_cs dst)) 1 p \/ tie (cr_weights (i_cs dst)) 1 p -> halves_up set w 0 -> halves_up set w (w - 1))).
Proof. exact flat_encoded. Qed.
Print Assumptions C70_encoded_exactly.

(** C70: from YCbCr, exactly: unless blue reaches 512 and SSE2 or AVX2 do the first column with vector code and
    the last one without. *)
Theorem C70_decoded_exactly : forall set T w h src dst sb db m p,
  successful_call (converters set) T w h src dst sb db m ->
  is_rgb (i_pf src) = false -> is_rgb (i_pf dst) = true -> 0 < w -> 0 < h -> flat src w h sb p ->
  ((exists q, flat dst w h (dsts m) q) <->
   (~ blue_fits (i_cs src) p -> blue_wraps set (i_pf src) (i_pf dst) w 0 -> blue_wraps set (i_pf src) (i_pf dst) w (w - 1))).
Proof. exact flat_decoded. Qed.
Print Assumptions C70_decoded_exactly.

(** C70: re-orderings keep the colour. *)
Theorem C70_reordered : forall set T w h src dst sb db m p,
  successful_call (converters set) T w h src dst sb db m ->
  is_rgb (i_pf src) = true -> is_rgb (i_pf dst) = true -> flat src w h sb p -> flat dst w h (dsts m) p.
Proof. exact flat_reordered. Qed.
Print Assumptions C70_reordered.

Ltac each_column x y X Y n :=
  let A := fresh in assert (A : In x (map Z.of_nat (seq 0 n))) by (apply in_map_iff; exists (Z.to_nat x); split; [lia|apply in_seq; lia]);
  replace y with 0 by lia; revert A; vm_compute; intros A; repeat (destruct A as [A|A]; [rewrite <- A; reflexivity|]); contradiction.

(** C70 does not hold in full. NEON: nine pixels (0, 149, 27) have Cb 97 eight times, then 96. SSE2 and AVX2:
    seventeen pixels of one blue come out without blue, but for the last. *)
Theorem C70_refuted :
  (exists src dst sb db m, successful_call (converters Neon) T64_release 9 1 src dst sb db m /\
     flat src 9 1 sb (0, 149, 27) /\ pixel dst 9 1 (dsts m) 0 0 = (94, 97, 71) /\ pixel dst 9 1 (dsts m) 8 0 = (94, 96, 71)) /\
  (forall set, set = CpuInfo.Sse2 \/ set = CpuInfo.Avx2 -> exists src dst sb db m,
     successful_call (converters set) T64_release 17 1 src dst sb db m /\
     flat src 17 1 sb (255, 255, 128) /\ pixel dst 17 1 (dsts m) 0 0 = (255, 229, 0) /\ pixel dst 17 1 (dsts m) 16 0 = (255, 229, 255)).
Proof.
  split.
  - exists ex_bgra, ex_i444_16, [concat (repeat [27; 149; 0; 255] 9)], [repeat 0 9; repeat 0 9; repeat 0 9]. eexists.
    split; [check_success|]. split; [intros x y X Y; each_column x y X Y 9%nat|]. vm_compute. auto.
  - intros set H. exists ex_i444_16, ex_bgra, [repeat 255 17; repeat 255 17; repeat 128 17], [repeat 0 68].
    destruct H as [-> | ->]; eexists; (split; [check_success|]);
      (split; [intros x y X Y; each_column x y X Y 17%nat|]); vm_compute; auto.
Qed.
Print Assumptions C70_refuted.

(** Nine pixels (1, 149, 27): no tie, no blue of 512; one colour comes out on every set. *)
Example C70_example set : exists m,
  successful_call (converters set) T64_debug 9 1 ex_bgra ex_i444_16 [concat (repeat [27; 149; 1; 255] 9)] [repeat 0 9; repeat 0 9; repeat 0 9] m /\
  flat ex_bgra 9 1 [concat (repeat [27; 149; 1; 255] 9)] (1, 149, 27) /\
  ~ tie (cb_weights (i_cs ex_i444_16)) 1 (1, 149, 27) /\ ~ tie (cr_weights (i_cs ex_i444_16)) 1 (1, 149, 27) /\ blue_fits CsRgb (1, 149, 27).
Proof.
  eexists. split; [destruct set; check_success|]. split; [intros x y X Y; each_column x y X Y 9%nat|].
  split; [vm_compute; discriminate|]. split; [vm_compute; discriminate|]. reflexivity.
Qed.
