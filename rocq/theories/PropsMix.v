(** Mixtures of pictures (C69). *)
From Coq Require Import ZArith List Bool Lia.
Import ListNotations.
From Verif Require Import Base Fmt CpuInfo Lib Sets Spec SetSpec ApiSpec Api PropsConvert PropsPixel MixSpec MixFacts.
Open Scope Z_scope.

(** C69: if the third RGB picture is the mean of the two others, weighted [a] to [b] and rounded, then its encoded
    samples are the weighted mean of theirs, up to 3/2. Each of the three calls has its own instruction set. *)
Theorem C69_encoded : forall st1 st2 st3 T1 T2 T3 w h src1 src2 src3 dst1 dst2 dst3 sb1 sb2 sb3 db1 db2 db3 m1 m2 m3 a b,
  successful_call (converters st1) T1 w h src1 dst1 sb1 db1 m1 ->
  successful_call (converters st2) T2 w h src2 dst2 sb2 db2 m2 ->
  successful_call (converters st3) T3 w h src3 dst3 sb3 db3 m3 ->
  is_rgb (i_pf src1) = true -> is_rgb (i_pf src2) = true -> is_rgb (i_pf src3) = true -> is_rgb (i_pf dst1) = false ->
  i_pf dst2 = i_pf dst1 -> i_pf dst3 = i_pf dst1 -> i_cs dst2 = i_cs dst1 -> i_cs dst3 = i_cs dst1 ->
  0 <= a -> 0 <= b ->
  (forall x y, 0 <= x < w -> 0 <= y < h ->
     mixed a b 1 (pixel src1 w h sb1 x y) (pixel src2 w h sb2 x y) (pixel src3 w h sb3 x y)) ->
  forall x y, 0 <= x < w -> 0 <= y < h ->
  mixed a b 3 (pixel dst1 w h (dsts m1) x y) (pixel dst2 w h (dsts m2) x y) (pixel dst3 w h (dsts m3) x y).
Proof. exact encoded_mixed. Qed.
Print Assumptions C69_encoded.
(** Two pictures and their mean, weighted 1 to 2. *)
Definition ex_fade1 : list (list Z) := [[10; 200; 30; 9;  40; 50; 60; 9;  70; 180; 90; 9;  100; 110; 120; 9]].
Definition ex_fade2 : list (list Z) := [[250; 20; 33; 9;  4; 5; 6; 9;  0; 255; 9; 9;  255; 255; 255; 9]].
Definition ex_fade3 : list (list Z) := [[170; 80; 32; 9;  16; 20; 24; 9;  23; 230; 36; 9;  203; 207; 210; 9]].
Example C69_encoded_example set : exists m1 m2 m3,
  successful_call (converters set) T64_debug 2 2 ex_bgra ex_nv12 ex_fade1 ex_nv12_buffers m1 /\
  successful_call (converters set) T64_debug 2 2 ex_bgra ex_nv12 ex_fade2 ex_nv12_buffers m2 /\
  successful_call (converters set) T64_debug 2 2 ex_bgra ex_nv12 ex_fade3 ex_nv12_buffers m3 /\
  (forall x y, 0 <= x < 2 -> 0 <= y < 2 ->
     mixed 1 2 1 (pixel ex_bgra 2 2 ex_fade1 x y) (pixel ex_bgra 2 2 ex_fade2 x y) (pixel ex_bgra 2 2 ex_fade3 x y)) /\
  dsts m1 <> dsts m2 /\ dsts m2 <> dsts m3.
Proof.
  eexists. eexists. eexists. split; [destruct set; check_success|]. split; [destruct set; check_success|]. split; [destruct set; check_success|]. split.
  - intros x y X Y. assert (A : x = 0 \/ x = 1) by lia. assert (B : y = 0 \/ y = 1) by lia.
    destruct A as [-> | ->], B as [-> | ->]; vm_compute; repeat split; discriminate.
  - split; discriminate.
Qed.

(** C69: the other way, for pixels whose samples are the rounded weighted mean of those of two others: components
    that are not clamped are the weighted mean of theirs, up to 3. *)
Theorem C69_decoded : forall st1 st2 st3 T1 T2 T3 w h src1 src2 src3 dst1 dst2 dst3 sb1 sb2 sb3 db1 db2 db3 m1 m2 m3 a b,
  successful_call (converters st1) T1 w h src1 dst1 sb1 db1 m1 ->
  successful_call (converters st2) T2 w h src2 dst2 sb2 db2 m2 ->
  successful_call (converters st3) T3 w h src3 dst3 sb3 db3 m3 ->
  is_rgb (i_pf src1) = false -> is_rgb (i_pf src2) = false -> is_rgb (i_pf src3) = false ->
  is_rgb (i_pf dst1) = true -> is_rgb (i_pf dst2) = true -> is_rgb (i_pf dst3) = true ->
  i_cs src2 = i_cs src1 -> i_cs src3 = i_cs src1 -> 0 <= a -> 0 <= b ->
  forall x y, 0 <= x < w -> 0 <= y < h ->
  mixed a b 1 (pixel src1 w h sb1 x y) (pixel src2 w h sb2 x y) (pixel src3 w h sb3 x y) ->
  let '(r1, g1, b1) := pixel dst1 w h (dsts m1) x y in let '(r2, g2, b2) := pixel dst2 w h (dsts m2) x y in
  let '(r3, g3, b3) := pixel dst3 w h (dsts m3) x y in
  (free r1 -> free r2 -> free r3 -> mean a b 6 r1 r2 r3) /\ (free g1 -> free g2 -> free g3 -> mean a b 6 g1 g2 g3) /\
  (free b1 -> free b2 -> free b3 -> mean a b 6 b1 b2 b3).
Proof. exact decoded_mixed. Qed.
Print Assumptions C69_decoded.
(** One pixel of each picture, weighted 1 to 1; no component is clamped. *)
Example C69_decoded_example set : exists m1 m2 m3, let src := Image I444 Bt709 3 None in
  successful_call (converters set) T64_debug 1 1 src ex_bgra [[100]; [140]; [120]] (zeros [4]) m1 /\
  successful_call (converters set) T64_debug 1 1 src ex_bgra [[131]; [120]; [137]] (zeros [4]) m2 /\
  successful_call (converters set) T64_debug 1 1 src ex_bgra [[116]; [130]; [128]] (zeros [4]) m3 /\
  mixed 1 1 1 (pixel src 1 1 [[100]; [140]; [120]] 0 0) (pixel src 1 1 [[131]; [120]; [137]] 0 0) (pixel src 1 1 [[116]; [130]; [128]] 0 0) /\
  pixel ex_bgra 1 1 (dsts m1) 0 0 = (83, 100, 123) /\ pixel ex_bgra 1 1 (dsts m2) 0 0 = (150, 131, 117) /\
  pixel ex_bgra 1 1 (dsts m3) 0 0 = (116, 116, 121).
Proof.
  eexists. eexists. eexists. cbv zeta. split; [destruct set; check_success|]. split; [destruct set; check_success|]. split; [destruct set; check_success|].
  split; [vm_compute; repeat split; discriminate|]. vm_compute. repeat split.
Qed.
