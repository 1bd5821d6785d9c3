(** Where exactly the instruction sets differ. Each theorem is followed by its assumptions and
    by a concrete case. These theorems give in full what the partial ones for C15, C25, C26, C45
    and C56 leave open. *)
From Coq Require Import ZArith List Bool Lia.
Import ListNotations.
From Verif Require Import Base Fmt Exec CpuInfo Lib Sets Spec SimdSpec SetSpec ApiSpec Api PropsConvert
  Itu PixelSpec PropsPixel MoveSpec PropsMore PropsMove WhereSpec WhereFacts.
Open Scope Z_scope.

(** C14: RGB to YCbCr, every sample on every instruction set. The chroma is one more than that of
    the formula exactly where NEON rounds a half upwards. *)
Theorem C14_exactly : forall set T w h src dst sb db m',
  successful_call (converters set) T w h src dst sb db m' ->
  is_rgb (i_pf src) = true -> is_rgb (i_pf dst) = false ->
  forall x y, 0 <= x < w -> 0 <= y < h ->
  let '(l, cb, cr) := pixel dst w h (dsts m') x y in
  let '(n, p) := chroma_area (i_pf dst) (pixel src w h sb) x y in
  let up k := halves_up set w x /\ tie (k (i_cs dst)) n p in
  l = luma (i_cs dst) (pixel src w h sb x y) /\
  (up cb_weights -> cb = blue_diff (i_cs dst) n p + 1) /\ (~ up cb_weights -> cb = blue_diff (i_cs dst) n p) /\
  (up cr_weights -> cr = red_diff (i_cs dst) n p + 1) /\ (~ up cr_weights -> cr = red_diff (i_cs dst) n p).
Proof. exact c14_exactly. Qed.
Print Assumptions C14_exactly.

(** C15: YCbCr to RGB, every pixel on every instruction set. Only blue is ever wrong, and then it
    is 0 instead of 255. *)
Theorem C15_exactly : forall set T w h src dst sb db m',
  successful_call (converters set) T w h src dst sb db m' ->
  is_rgb (i_pf src) = false -> is_rgb (i_pf dst) = true ->
  forall x y, 0 <= x < w -> 0 <= y < h ->
  let '(l, cb, cr) := pixel src w h sb x y in
  let '(r, g, b) := ycc_to_rgb (i_cs src) l cb cr in
  let over := blue_wraps set (i_pf src) (i_pf dst) w x /\ ~ blue_fits (i_cs src) (pixel src w h sb x y) in
  (over -> b = 255 /\ pixel dst w h (dsts m') x y = (r, g, 0)) /\
  (~ over -> pixel dst w h (dsts m') x y = (r, g, b)).
Proof. exact c15_exactly. Qed.
Print Assumptions C15_exactly.
(** [C25_refuted] and [C15_refuted] show calls with both kinds of columns. *)

(** C25: from RGB to YCbCr, two instruction sets leave the same memory exactly if the columns with
    chroma half way between two integers are rounded in the same way by both. *)
Theorem C25_exactly : forall set set' T T' w h src dst sb db m1 m2,
  successful_call (converters set) T w h src dst sb db m1 ->
  successful_call (converters set') T' w h src dst sb db m2 ->
  is_rgb (i_pf src) = true -> is_rgb (i_pf dst) = false ->
  (m1 = m2 <-> forall x y, 0 <= x < w -> 0 <= y < h ->
     let '(n, p) := chroma_area (i_pf dst) (pixel src w h sb) x y in
     tie (cb_weights (i_cs dst)) n p \/ tie (cr_weights (i_cs dst)) n p -> (halves_up set w x <-> halves_up set' w x)).
Proof. exact c25_exactly. Qed.
Print Assumptions C25_exactly.

(** 9 BGRA pixels: a tie in column 8 only, which NEON does one by one; the same bytes. Then one in
    column 0 as well. *)
Definition ex_tie_last : list (list Z) := [concat (repeat [10; 20; 30; 255] 8) ++ [27; 149; 0; 255]].
Definition ex_tie_first : list (list Z) := [[27; 149; 0; 255] ++ concat (repeat [10; 20; 30; 255] 7) ++ [27; 149; 0; 255]].
Example C25_exactly_example : exists m1 m2 m3 m4,
  successful_call (converters Neon) T64_release 9 1 ex_bgra ex_i444_16 ex_tie_last (zeros [9; 9; 9]) m1 /\
  successful_call (converters X86) T64_release 9 1 ex_bgra ex_i444_16 ex_tie_last (zeros [9; 9; 9]) m2 /\
  successful_call (converters Neon) T64_release 9 1 ex_bgra ex_i444_16 ex_tie_first (zeros [9; 9; 9]) m3 /\
  successful_call (converters X86) T64_release 9 1 ex_bgra ex_i444_16 ex_tie_first (zeros [9; 9; 9]) m4 /\
  tie (cb_weights Bt601) 1 (pixel ex_bgra 9 1 ex_tie_last 8 0) /\ tie (cb_weights Bt601) 1 (pixel ex_bgra 9 1 ex_tie_first 0 0) /\
  m1 = m2 /\ m3 <> m4.
Proof.
  do 4 eexists. split; [check_success|]. split; [check_success|]. split; [check_success|]. split; [check_success|].
  split; [vm_compute; reflexivity|]. split; [vm_compute; reflexivity|]. split; [vm_compute; reflexivity|vm_compute; discriminate].
Qed.

(** C26: from YCbCr to RGB, two instruction sets leave the same memory exactly if blue components of
    512 or more overflow on both or on none. *)
Theorem C26_exactly : forall set set' T T' w h src dst sb db m1 m2,
  successful_call (converters set) T w h src dst sb db m1 ->
  successful_call (converters set') T' w h src dst sb db m2 ->
  is_rgb (i_pf src) = false ->
  (m1 = m2 <-> forall x y, 0 <= x < w -> 0 <= y < h -> ~ blue_fits (i_cs src) (pixel src w h sb x y) ->
     (blue_wraps set (i_pf src) (i_pf dst) w x <-> blue_wraps set' (i_pf src) (i_pf dst) w x)).
Proof. exact c26_exactly. Qed.
Print Assumptions C26_exactly.

(** I444, 17x1, blue too large everywhere: SSE2 and AVX2 agree (16 columns), X86 does not. 9x1:
    SSE2 has 8 vector columns, AVX2 none. *)
Example C26_exactly_example : exists m1 m2 m3 m4 m5,
  successful_call (converters Sse2) T64_release 17 1 ex_i444_16 ex_bgra ex_blue (blues 17) m1 /\
  successful_call (converters Avx2) T64_release 17 1 ex_i444_16 ex_bgra ex_blue (blues 17) m2 /\
  successful_call (converters X86) T64_release 17 1 ex_i444_16 ex_bgra ex_blue (blues 17) m3 /\
  successful_call (converters Sse2) T64_release 9 1 ex_i444_16 ex_bgra ex_blue (blues 9) m4 /\
  successful_call (converters Avx2) T64_release 9 1 ex_i444_16 ex_bgra ex_blue (blues 9) m5 /\
  m1 = m2 /\ m1 <> m3 /\ m4 <> m5.
Proof.
  do 5 eexists. split; [check_success|]. split; [check_success|]. split; [check_success|]. split; [check_success|].
  split; [check_success|]. split; [vm_compute; reflexivity|]. split; vm_compute; discriminate.
Qed.

(** C56: for which pixels moving and converting commute. *)
Theorem C56_exactly : forall set set' T T' w h w' h' f src src' dst dst' sb sb' db db' m m',
  successful_call (converters set) T w h src dst sb db m ->
  successful_call (converters set') T' w' h' src' dst' sb' db' m' ->
  i_pf src = i_pf src' -> i_cs src = i_cs src' -> i_pf dst = i_pf dst' -> i_cs dst = i_cs dst' ->
  comes_from f w h w' h' ->
  (i_pf dst = I420 \/ i_pf dst = Nv12 -> blockwise f w' h') ->
  (forall x y, 0 <= x < w' -> 0 <= y < h' -> pixel src' w' h' sb' x y = pixel src w h sb (fst (f x y)) (snd (f x y))) ->
  forall x y, 0 <= x < w' -> 0 <= y < h' ->
  let '(n, p) := chroma_area (i_pf dst') (pixel src' w' h' sb') x y in
  (pixel dst' w' h' (dsts m') x y = pixel dst w h (dsts m) (fst (f x y)) (snd (f x y)) <->
   (is_rgb (i_pf src) = true -> is_rgb (i_pf dst) = false ->
    tie (cb_weights (i_cs dst)) n p \/ tie (cr_weights (i_cs dst)) n p ->
    (halves_up set w (fst (f x y)) <-> halves_up set' w' x)) /\
   (is_rgb (i_pf src) = false -> ~ blue_fits (i_cs src) (pixel src' w' h' sb' x y) ->
    (blue_wraps set (i_pf src) (i_pf dst) w (fst (f x y)) <-> blue_wraps set' (i_pf src) (i_pf dst) w' x))).
Proof. exact moved_exactly. Qed.
Print Assumptions C56_exactly.
(** [C56_example] and [C56_refuted] show such calls. *)

(** C45: for which pixels converting a rectangle gives the same as converting the whole image. *)
Theorem C45_exactly : forall set set' T T' w h w' h' x0 y0 src src' dst dst' sb sb' db db' m m',
  successful_call (converters set) T w h src dst sb db m ->
  successful_call (converters set') T' w' h' src' dst' sb' db' m' ->
  i_pf src = i_pf src' -> i_cs src = i_cs src' -> i_pf dst = i_pf dst' -> i_cs dst = i_cs dst' ->
  0 <= x0 -> x0 + w' <= w -> 0 <= y0 -> y0 + h' <= h ->
  (i_pf dst = I420 \/ i_pf dst = Nv12 -> x0 mod 2 = 0 /\ y0 mod 2 = 0) ->
  (forall x y, 0 <= x < w' -> 0 <= y < h' -> pixel src' w' h' sb' x y = pixel src w h sb (x0 + x) (y0 + y)) ->
  forall x y, 0 <= x < w' -> 0 <= y < h' ->
  let '(n, p) := chroma_area (i_pf dst') (pixel src' w' h' sb') x y in
  (pixel dst' w' h' (dsts m') x y = pixel dst w h (dsts m) (x0 + x) (y0 + y) <->
   (is_rgb (i_pf src) = true -> is_rgb (i_pf dst) = false ->
    tie (cb_weights (i_cs dst)) n p \/ tie (cr_weights (i_cs dst)) n p ->
    (halves_up set w (x0 + x) <-> halves_up set' w' x)) /\
   (is_rgb (i_pf src) = false -> ~ blue_fits (i_cs src) (pixel src' w' h' sb' x y) ->
    (blue_wraps set (i_pf src) (i_pf dst) w (x0 + x) <-> blue_wraps set' (i_pf src) (i_pf dst) w' x))).
Proof. exact cut_exactly. Qed.
Print Assumptions C45_exactly.
(** [C45_rectangles_example] and [C45_refuted] show such calls. *)
