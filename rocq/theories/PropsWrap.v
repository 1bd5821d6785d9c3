(** What exactly the overflow of blue in the vector code of SSE2 and AVX2 breaks: the partial theorems
    for C16, C18, C34, C39, C54 and C57 in full, and the greys of the full range spaces (C19). *)
From Coq Require Import ZArith QArith List Bool Lia.
Import ListNotations.
From Verif Require Import Base Fmt Exec CpuInfo Lib Sets Spec SimdSpec SetSpec ApiSpec Api PropsConvert
  Itu PixelSpec DocSpec PropsPixel MoveSpec RouteSpec PropsRoute PropsMove WhereSpec WrapSpec WrapFacts.
Open Scope Z_scope.

(** C18: red and green always saturate; blue does exactly if the pixel does not overflow. *)
Theorem C18_exactly : forall set T w h src dst sb db m',
  successful_call (converters set) T w h src dst sb db m' ->
  is_rgb (i_pf src) = false -> is_rgb (i_pf dst) = true ->
  forall x y, 0 <= x < w -> 0 <= y < h ->
  let '(l, cb, cr) := pixel src w h sb x y in
  let '(r, g, b) := rgb64 (i_cs src) l cb cr in
  let '(r', g', b') := pixel dst w h (dsts m') x y in
  saturated r r' /\ saturated g g' /\ (saturated b b' <-> ~ overflows set src dst w h sb x y).
Proof. exact c18_exactly. Qed.
Print Assumptions C18_exactly.
(** I444, 17x1, blue too large everywhere: with SSE2 columns 0 to 15 overflow, column 16 does not. *)
Example C18_exactly_example : exists m,
  successful_call (converters CpuInfo.Sse2) T64_release 17 1 ex_i444_16 ex_bgra ex_blue (blues 17) m /\
  overflows CpuInfo.Sse2 ex_i444_16 ex_bgra 17 1 ex_blue 15 0 /\ ~ overflows CpuInfo.Sse2 ex_i444_16 ex_bgra 17 1 ex_blue 16 0 /\
  ~ overflows X86 ex_i444_16 ex_bgra 17 1 ex_blue 15 0 /\
  snd (pixel ex_bgra 17 1 (dsts m) 15 0) = 0 /\ snd (pixel ex_bgra 17 1 (dsts m) 16 0) = 255.
Proof.
  eexists. split; [check_success|]. split.
  { split; [split; [left; reflexivity|vm_compute; reflexivity]|vm_compute; intros F; discriminate F]. }
  split; [intros [[_ F] _]; vm_compute in F; discriminate F|]. split; [intros [[[F|F] _] _]; discriminate F|]. split; vm_compute; reflexivity.
Qed.

(** C34: with the same chroma and more luma no component decreases, exactly if the brighter pixel
    does not overflow unless the darker one does. *)
Theorem C34_exactly : forall set set' T T' w w' h h' src src' dst dst' sb sb' db db' m1 m2,
  successful_call (converters set) T w h src dst sb db m1 ->
  successful_call (converters set') T' w' h' src' dst' sb' db' m2 ->
  is_rgb (i_pf src) = false -> is_rgb (i_pf dst) = true ->
  is_rgb (i_pf src') = false -> is_rgb (i_pf dst') = true -> i_cs src = i_cs src' ->
  forall x y x' y', 0 <= x < w -> 0 <= y < h -> 0 <= x' < w' -> 0 <= y' < h' ->
  forall l l' cb cr, pixel src w h sb x y = (l, cb, cr) -> pixel src' w' h' sb' x' y' = (l', cb, cr) -> l <= l' ->
  (below (pixel dst w h (dsts m1) x y) (pixel dst' w' h' (dsts m2) x' y') <->
   (overflows set' src' dst' w' h' sb' x' y' -> overflows set src dst w h sb x y)).
Proof. exact c34_exactly. Qed.
Print Assumptions C34_exactly.
(** [C34_refuted] shows such a pair of pixels. *)

(** C54: decoded and re-ordered, or decoded directly: the pixels are the same exactly if both overflow
    or neither does. *)
Theorem C54_decoded_exactly : forall set set' T T' w h src im im' im'' sb b b' b'' m1 m2,
  successful_call (converters set) T w h src im sb b m1 -> reordered w h im (dsts m1) im' b' ->
  successful_call (converters set') T' w h src im'' sb b'' m2 ->
  is_rgb (i_pf src) = false -> is_rgb (i_pf im) = true -> is_rgb (i_pf im'') = true ->
  forall x y, 0 <= x < w -> 0 <= y < h ->
  (pixel im' w h b' x y = pixel im'' w h (dsts m2) x y <->
   (overflows set src im w h sb x y <-> overflows set' src im'' w h sb x y)).
Proof. exact c54_exactly. Qed.
Print Assumptions C54_decoded_exactly.
(** [C54_nv12] and [C54_refuted] show such calls. *)

(** C57: pixels whose samples differ by at most [d] are decoded to components that differ by at most
    3 [d], 3 [d] and 4 [d], exactly if both overflow or neither does, or if any two bytes are as
    close as that. *)
Theorem C57_decoded_exactly : forall set set' T T' w w' h h' src src' dst dst' sb sb' db db' m m' d,
  successful_call (converters set) T w h src dst sb db m ->
  successful_call (converters set') T' w' h' src' dst' sb' db' m' ->
  is_rgb (i_pf src) = false -> is_rgb (i_pf src') = false -> is_rgb (i_pf dst) = true -> is_rgb (i_pf dst') = true ->
  i_cs src = i_cs src' -> 0 <= d ->
  forall x y x' y', 0 <= x < w -> 0 <= y < h -> 0 <= x' < w' -> 0 <= y' < h' ->
  within (d, d, d) (pixel src w h sb x y) (pixel src' w' h' sb' x' y') ->
  (within (3 * d, 3 * d, 4 * d) (pixel dst w h (dsts m) x y) (pixel dst' w' h' (dsts m') x' y') <->
   (overflows set src dst w h sb x y <-> overflows set' src' dst' w' h' sb' x' y') \/ 255 <= 4 * d).
Proof. exact c57_exactly. Qed.
Print Assumptions C57_decoded_exactly.
(** [C57_refuted] shows such pixels. *)

(** C16 and C39: the components are as near to those of the standards, and to those of the formulas of
    the documentation, as in [C16_ycbcr_to_rgb_accuracy_partial] and [C39_documented_inverse_partial],
    exactly if the pixel does not overflow. *)
Theorem C16_ycbcr_to_rgb_exactly : forall set T w h src dst sb db m',
  successful_call (converters set) T w h src dst sb db m' ->
  is_rgb (i_pf src) = false -> is_rgb (i_pf dst) = true ->
  forall x y, 0 <= x < w -> 0 <= y < h ->
  let '(l, cb, cr) := pixel src w h sb x y in
  (all_near (rgb_error (i_cs src)) (pixel dst w h (dsts m') x y)
    (q_clamp_rgb (exact_rgb (i_cs src) (inject_Z l) (inject_Z cb) (inject_Z cr))) <-> ~ overflows set src dst w h sb x y).
Proof. exact c16_exactly. Qed.
Print Assumptions C16_ycbcr_to_rgb_exactly.
Theorem C39_documented_inverse_exactly : forall set T w h src dst sb db m',
  successful_call (converters set) T w h src dst sb db m' ->
  is_rgb (i_pf src) = false -> is_rgb (i_pf dst) = true ->
  forall x y, 0 <= x < w -> 0 <= y < h ->
  let '(l, cb, cr) := pixel src w h sb x y in
  (all_near (doc_rgb_error (i_cs src)) (pixel dst w h (dsts m') x y)
    (q_clamp_rgb (doc_rgb (i_cs src) (inject_Z l) (inject_Z cb) (inject_Z cr))) <-> ~ overflows set src dst w h sb x y).
Proof. exact c39_exactly. Qed.
Print Assumptions C39_documented_inverse_exactly.

(** C19: in the full range spaces, neutral chroma gives these colours, and chroma 127, which the
    constants take as the centre, gives the grey of the luma exactly. *)
Theorem C19_full_range : forall set T w h src dst sb db m',
  successful_call (converters set) T w h src dst sb db m' ->
  is_rgb (i_pf src) = false -> is_rgb (i_pf dst) = true -> limited (i_cs src) = false ->
  forall x y, 0 <= x < w -> 0 <= y < h -> forall l,
  (pixel src w h sb x y = (l, 128, 128) -> pixel dst w h (dsts m') x y = full_grey (i_cs src) l) /\
  (pixel src w h sb x y = (l, 127, 127) -> pixel dst w h (dsts m') x y = (l, l, l)).
Proof. exact c19_full. Qed.
Print Assumptions C19_full_range.
Definition ex_full_greys : list (list Z) := [[0; 100; 255; 100]; [128; 128; 128; 127]; [128; 128; 128; 127]].
Example C19_full_example set : successful_call (converters set) T64_debug 4 1 ex_i444_full ex_bgra ex_full_greys (zeros [16])
  (Mem ex_full_greys [[2; 0; 1; 255; 102; 99; 101; 255; 255; 254; 255; 255; 100; 100; 100; 255]]).
Proof. destruct set; check_success. Qed.
