(** Properties of conversions by different routes, for the four instruction sets. Each theorem is
    followed by its assumptions and by a concrete case. *)
From Coq Require Import ZArith List Bool Lia.
Import ListNotations.
From Verif Require Import Base Fmt Exec CpuInfo Lib Sets Spec SimdSpec SetSpec ApiSpec Api PropsConvert
  Itu PixelSpec PropsPixel RouteSpec RouteFacts.
Open Scope Z_scope.

(** C54: an RGB image and what re-orderings make of it are encoded alike, on one instruction set
    or on any two without NEON. *)
Theorem C54_encoded : forall set set' T T' w h im im' dst dst' b b' db db' m1 m2,
  reordered w h im b im' b' -> is_rgb (i_pf im) = true ->
  successful_call (converters set) T w h im dst b db m1 ->
  successful_call (converters set') T' w h im' dst' b' db' m2 ->
  is_rgb (i_pf dst) = false -> i_pf dst' = i_pf dst -> i_cs dst' = i_cs dst ->
  set = set' \/ set <> Neon /\ set' <> Neon ->
  forall x y, 0 <= x < w -> 0 <= y < h -> pixel dst w h (dsts m1) x y = pixel dst' w h (dsts m2) x y.
Proof. exact c54_encoded. Qed.
Print Assumptions C54_encoded.

(** BGR to I420, and BGR to RGB to BGRA to I420. *)
Example C54_bgr set : exists b' m1 m2,
  reordered 14 2 ex_bgr [ramp 92] ex_bgra b' /\
  successful_call (converters set) T64_debug 14 2 ex_bgr (Image I420 Bt709 3 None) [ramp 92] (zeros [28; 7; 7]) m1 /\
  successful_call (converters set) T64_debug 14 2 ex_bgra (Image I420 Bt709 3 None) b' (zeros [28; 7; 7]) m2 /\
  dsts m1 = dsts m2.
Proof.
  destruct set; (eexists; eexists; eexists; split;
    [eapply (Re_S _ _ _ _ ex_rgb _ Avx2 T64_debug ex_bgra (zeros [112]));
     [eapply (Re_S _ _ _ _ ex_bgr _ X86 T64_debug ex_rgb (zeros [84])); [apply Re_0|check_success|reflexivity]
     |check_success|reflexivity]
    |split; [check_success|split; [check_success|reflexivity]]]).
Qed.

(** C54: a YCbCr image decoded, then re-ordered, is the image decoded directly, where no blue
    reaches 512 (or the instruction sets are the portable one and NEON). Missing: larger blues on
    SSE2 and AVX2, for which it is false ([C54_refuted]). *)
Theorem C54_decoded_partial : forall set set' T T' w h src im im' im'' sb b b' b'' m1 m2,
  successful_call (converters set) T w h src im sb b m1 -> reordered w h im (dsts m1) im' b' ->
  successful_call (converters set') T' w h src im'' sb b'' m2 ->
  is_rgb (i_pf src) = false -> is_rgb (i_pf im) = true -> is_rgb (i_pf im'') = true ->
  forall x y, 0 <= x < w -> 0 <= y < h ->
  (set = X86 \/ set = Neon \/ blue_fits (i_cs src) (pixel src w h sb x y)) ->
  (set' = X86 \/ set' = Neon \/ blue_fits (i_cs src) (pixel src w h sb x y)) ->
  pixel im' w h b' x y = pixel im'' w h (dsts m2) x y.
Proof. exact c54_decoded. Qed.
Print Assumptions C54_decoded_partial.

(** C54: and it is opaque by either route. *)
Theorem C54_opaque : forall set T w h src im sb b m1 im' b',
  successful_call (converters set) T w h src im sb b m1 -> reordered w h im (dsts m1) im' b' ->
  i_pf im' = Bgra \/ i_pf im' = Rgba ->
  forall x y, 0 <= x < w -> 0 <= y < h -> sample b' (plane_of im' w h 0) y (4 * x + 3) = 255.
Proof. exact c54_opaque. Qed.
Print Assumptions C54_opaque.

(** NV12 to RGB to BGRA, and NV12 to BGRA. *)
Example C54_nv12 set : exists m1 b' m2,
  successful_call (converters set) T64_debug 18 2 ex_nv12_full ex_rgb [ramp 54] (zeros [108]) m1 /\
  reordered 18 2 ex_rgb (dsts m1) ex_bgra b' /\
  successful_call (converters set) T64_debug 18 2 ex_nv12_full ex_bgra [ramp 54] (zeros [144]) m2 /\ b' = dsts m2.
Proof.
  destruct set; (eexists; eexists; eexists; split; [check_success|split;
    [eapply (Re_S _ _ _ _ ex_rgb _ Sse2 T64_debug ex_bgra (zeros [144])); [apply Re_0|check_success|reflexivity]
    |split; [check_success|reflexivity]]]).
Qed.

(** C54: decoded, re-ordered any number of times and encoded again, in whatever colour space and
    format: the RGB formats in between do not matter. *)
Theorem C54_transcoded_partial : forall seta Ta w h src im sb b ma im' b' setb Tb dst db mb
      setc Tc jm c mc jm' c' setd Td dst' db' md,
  successful_call (converters seta) Ta w h src im sb b ma -> reordered w h im (dsts ma) im' b' ->
  successful_call (converters setb) Tb w h im' dst b' db mb ->
  successful_call (converters setc) Tc w h src jm sb c mc -> reordered w h jm (dsts mc) jm' c' ->
  successful_call (converters setd) Td w h jm' dst' c' db' md ->
  is_rgb (i_pf src) = false -> is_rgb (i_pf im) = true -> is_rgb (i_pf jm) = true -> is_rgb (i_pf dst) = false ->
  i_pf dst' = i_pf dst -> i_cs dst' = i_cs dst -> setb = setd \/ setb <> Neon /\ setd <> Neon ->
  (forall x y, 0 <= x < w -> 0 <= y < h ->
     (seta = X86 \/ seta = Neon \/ blue_fits (i_cs src) (pixel src w h sb x y)) /\
     (setc = X86 \/ setc = Neon \/ blue_fits (i_cs src) (pixel src w h sb x y))) ->
  forall x y, 0 <= x < w -> 0 <= y < h -> pixel dst w h (dsts mb) x y = pixel dst' w h (dsts md) x y.
Proof. exact c54_transcoded. Qed.
Print Assumptions C54_transcoded_partial.

(** NV12 to BGRA to I444, and NV12 to RGB to BGRA to I444, in another colour space. *)
Example C54_i444 set : exists ma mb mc c' md,
  successful_call (converters set) T64_debug 18 2 ex_nv12_full ex_bgra [ramp 54] (zeros [144]) ma /\
  successful_call (converters set) T64_debug 18 2 ex_bgra ex_i444_16 (dsts ma) (zeros [36; 36; 36]) mb /\
  successful_call (converters set) T64_debug 18 2 ex_nv12_full ex_rgb [ramp 54] (zeros [108]) mc /\
  reordered 18 2 ex_rgb (dsts mc) ex_bgra c' /\
  successful_call (converters set) T64_debug 18 2 ex_bgra ex_i444_16 c' (zeros [36; 36; 36]) md /\ dsts mb = dsts md.
Proof.
  destruct set; (eexists; eexists; eexists; eexists; eexists; split; [check_success|split; [check_success|split; [check_success|split;
    [eapply (Re_S _ _ _ _ ex_rgb _ Neon T64_debug ex_bgra (zeros [144])); [apply Re_0|check_success|reflexivity]
    |split; [check_success|reflexivity]]]]]).
Qed.

(** C54 does not hold in full: on one machine with SSE2 only, a bright blue NV12 image decoded to
    RGB (portable code) and the same image decoded to BGRA (vector code), then re-ordered to RGB. *)
Definition ex_nv12_bright : image := Image Nv12 Bt601 1 None.
Theorem C54_refuted : exists m1 b' m2,
  successful_call (converters Sse2) T64_release 16 2 ex_nv12_bright ex_bgra [repeat 255 48] (zeros [128]) m1 /\
  reordered 16 2 ex_bgra (dsts m1) ex_rgb b' /\
  successful_call (converters Sse2) T64_release 16 2 ex_nv12_bright ex_rgb [repeat 255 48] (zeros [96]) m2 /\
  pixel ex_rgb 16 2 b' 0 0 = (255, 125, 0) /\ pixel ex_rgb 16 2 (dsts m2) 0 0 = (255, 125, 255).
Proof.
  eexists. eexists. eexists. split; [|split; [|split; [|split]]].
  - check_success.
  - eapply (Re_S _ _ _ _ ex_bgra _ Sse2 T64_release ex_rgb (zeros [96])); [apply Re_0|check_success|reflexivity].
  - check_success.
  - vm_compute; reflexivity.
  - vm_compute; reflexivity.
Qed.
Print Assumptions C54_refuted.
