(** Properties of moved and of similar pictures, for the four instruction sets. Each theorem is
    followed by its assumptions and by a concrete case. *)
From Coq Require Import ZArith List Bool Lia.
Import ListNotations.
From Verif Require Import Base Fmt Exec CpuInfo Lib Sets Spec SimdSpec SetSpec ApiSpec Api PropsConvert
  Itu PixelSpec PropsPixel MoveSpec MoveFacts.
Open Scope Z_scope.

(** ** Moved pictures *)

(** C56: converting a picture whose pixels were moved gives the conversion of the picture, moved
    in the same way. For subsampled targets, the 2x2 blocks have to stay together.
    Missing: the vector and the scalar columns of NEON differ on ties, and those of SSE2 and AVX2
    where blue reaches 512 ([C56_refuted]). *)
Theorem C56_moved_partial : forall set set' T T' w h w' h' f src src' dst dst' sb sb' db db' m m',
  successful_call (converters set) T w h src dst sb db m ->
  successful_call (converters set') T' w' h' src' dst' sb' db' m' ->
  i_pf src = i_pf src' -> i_cs src = i_cs src' -> i_pf dst = i_pf dst' -> i_cs dst = i_cs dst' ->
  comes_from f w h w' h' ->
  (i_pf dst = I420 \/ i_pf dst = Nv12 -> blockwise f w' h') ->
  (forall x y, 0 <= x < w' -> 0 <= y < h' -> pixel src' w' h' sb' x y = pixel src w h sb (fst (f x y)) (snd (f x y))) ->
  (is_rgb (i_pf src) = true -> is_rgb (i_pf dst) = false -> set <> Neon /\ set' <> Neon) ->
  forall x y, 0 <= x < w' -> 0 <= y < h' ->
  (is_rgb (i_pf src) = false ->
    (set = X86 \/ set = Neon \/ blue_fits (i_cs src) (pixel src' w' h' sb' x y)) /\
    (set' = X86 \/ set' = Neon \/ blue_fits (i_cs src) (pixel src' w' h' sb' x y))) ->
  pixel dst' w' h' (dsts m') x y = pixel dst w h (dsts m) (fst (f x y)) (snd (f x y)).
Proof. exact moved_partial. Qed.
Print Assumptions C56_moved_partial.

(** C56: mirrored, upside down, transposed, turned and cut pictures are such pictures. *)
Theorem C56_motions : forall w h, 0 <= w -> 0 <= h ->
  comes_from (mirrored w) w h w h /\ comes_from (upside_down h) w h w h /\
  comes_from transposed w h h w /\ comes_from (turned h) w h h w /\
  (w mod 2 = 0 -> h mod 2 = 0 ->
   blockwise (mirrored w) w h /\ blockwise (upside_down h) w h /\ blockwise transposed h w /\ blockwise (turned h) h w) /\
  (forall x0 y0 w' h', 0 <= x0 -> x0 + w' <= w -> 0 <= y0 -> y0 + h' <= h ->
   comes_from (cut x0 y0) w h w' h' /\ (x0 mod 2 = 0 -> y0 mod 2 = 0 -> blockwise (cut x0 y0) w' h')).
Proof. exact motions. Qed.
Print Assumptions C56_motions.

(** C56: upside down, on one instruction set, there is no exception. *)
Theorem C56_upside_down : forall set T T' w h src src' dst dst' sb sb' db db' m m',
  successful_call (converters set) T w h src dst sb db m ->
  successful_call (converters set) T' w h src' dst' sb' db' m' ->
  i_pf src = i_pf src' -> i_cs src = i_cs src' -> i_pf dst = i_pf dst' -> i_cs dst = i_cs dst' ->
  (forall x y, 0 <= x < w -> 0 <= y < h -> pixel src' w h sb' x y = pixel src w h sb x (h - 1 - y)) ->
  forall x y, 0 <= x < w -> 0 <= y < h ->
  pixel dst' w h (dsts m') x y = pixel dst w h (dsts m) x (h - 1 - y).
Proof. exact flipped. Qed.
Print Assumptions C56_upside_down.

(** A BGRA picture of 4x2 pixels, turned (2x4), and upside down, to NV12. *)
Definition paint (w h : Z) (f : Z -> Z -> list Z) : list (list Z) :=
  [flat_map (fun y => flat_map (fun x => f x y) (zrange 0 w)) (zrange 0 h)].
Definition ex_picture (x y : Z) : list Z := [40 * x + 7; 90 * y + 11 * x; 200 - 31 * x * y; 255].
Definition ex_moved (f : motion) (x y : Z) : list Z := ex_picture (fst (f x y)) (snd (f x y)).
Ltac small x := match goal with H : 0 <= x < ?n |- _ =>
  first [ assert (x = 0 \/ x = 1) as [-> | ->] by lia | assert (x = 0 \/ x = 1 \/ x = 2 \/ x = 3) as [-> | [-> | [-> | ->]]] by lia ] end.
Example C56_example set : exists m m' m'',
  successful_call (converters set) T64_debug 4 2 ex_bgra ex_nv12 (paint 4 2 ex_picture) (zeros [8; 4]) m /\
  successful_call (converters set) T64_debug 2 4 ex_bgra ex_nv12 (paint 2 4 (ex_moved (turned 2))) (zeros [8; 4]) m' /\
  successful_call (converters set) T64_debug 4 2 ex_bgra ex_nv12 (paint 4 2 (ex_moved (upside_down 2))) (zeros [8; 4]) m'' /\
  (forall x y, 0 <= x < 2 -> 0 <= y < 4 ->
     pixel ex_bgra 2 4 (paint 2 4 (ex_moved (turned 2))) x y = pixel ex_bgra 4 2 (paint 4 2 ex_picture) (fst (turned 2 x y)) (snd (turned 2 x y))) /\
  (forall x y, 0 <= x < 4 -> 0 <= y < 2 ->
     pixel ex_bgra 4 2 (paint 4 2 (ex_moved (upside_down 2))) x y = pixel ex_bgra 4 2 (paint 4 2 ex_picture) x (2 - 1 - y)) /\
  pixel ex_nv12 4 2 (dsts m) 3 0 = pixel ex_nv12 2 4 (dsts m') 1 3 /\
  pixel ex_nv12 4 2 (dsts m) 3 0 <> pixel ex_nv12 4 2 (dsts m) 3 1.
Proof.
  destruct set; (eexists; eexists; eexists; split; [check_success|split; [check_success|split; [check_success|split; [|split; [|split]]]]];
    [intros x y Hx Hy; small x; small y; reflexivity|intros x y Hx Hy; small x; small y; reflexivity|vm_compute; reflexivity|vm_compute; discriminate]).
Qed.

(** C56 does not hold in full, except for the portable code: a row of equal pixels is its own
    mirror image, its conversion is not. *)
Theorem C56_refuted : forall set, set <> X86 -> exists w src dst sb db m,
  successful_call (converters set) T64_release w 1 src dst sb db m /\
  (forall x, 0 <= x < w -> pixel src w 1 sb x 0 = pixel src w 1 sb (fst (mirrored w x 0)) (snd (mirrored w x 0))) /\
  pixel dst w 1 (dsts m) 0 0 <> pixel dst w 1 (dsts m) (w - 1) 0.
Proof.
  assert (E : forall w src sb, forallb (fun x => let '(a, b, c) := pixel src w 1 sb x 0 in let '(a', b', c') := pixel src w 1 sb (w - 1 - x) 0 in
      (a =? a') && (b =? b') && (c =? c')) (zrange 0 w) = true ->
    forall x, 0 <= x < w -> pixel src w 1 sb x 0 = pixel src w 1 sb (fst (mirrored w x 0)) (snd (mirrored w x 0))).
  { intros w src sb F x Hx. rewrite forallb_forall in F. specialize (F x). unfold mirrored. cbn [fst snd].
    assert (I : In x (zrange 0 w)) by (apply In_zrange; exact Hx). specialize (F I).
    destruct (pixel src w 1 sb x 0) as [[a b] c], (pixel src w 1 sb (w - 1 - x) 0) as [[a' b'] c'].
    rewrite !andb_true_iff, !Z.eqb_eq in F. destruct F as [[-> ->] ->]. reflexivity. }
  intros [] H; [congruence| | |].
  1-2: exists 17, ex_i444_16, ex_bgra, ex_blue, (blues 17).
  3: exists 9, ex_bgra, ex_i444_16, [concat (repeat [27; 149; 0; 255] 9)], (zeros [9; 9; 9]).
  all: eexists; split; [check_success|split; [apply E; vm_compute; reflexivity|vm_compute; discriminate]].
Qed.
Print Assumptions C56_refuted.

(** ** Similar pictures *)

(** C57: encoding does not enlarge differences: if no component of two RGB pictures differs by more than [d] (around the
    pixel), neither do the samples of their conversions. *)
Theorem C57_encoded : forall set T T' w h src src' dst dst' sb sb' db db' m m' d,
  successful_call (converters set) T w h src dst sb db m ->
  successful_call (converters set) T' w h src' dst' sb' db' m' ->
  is_rgb (i_pf src) = true -> is_rgb (i_pf src') = true -> is_rgb (i_pf dst) = false ->
  i_pf dst = i_pf dst' -> i_cs dst = i_cs dst' -> 0 <= d ->
  forall x y, 0 <= x < w -> 0 <= y < h ->
  (forall x' y', 0 <= x' < w -> 0 <= y' < h -> x' / 2 = x / 2 -> y' / 2 = y / 2 ->
     within (d, d, d) (pixel src w h sb x' y') (pixel src' w h sb' x' y')) ->
  within (d, d, d) (pixel dst w h (dsts m) x y) (pixel dst' w h (dsts m') x y).
Proof. exact encoded_similar. Qed.
Print Assumptions C57_encoded.
Example C57_encoded_example set : exists m m',
  successful_call (converters set) T64_debug 2 2 ex_bgra ex_nv12 [repeat 100 16] (zeros [4; 2]) m /\
  successful_call (converters set) T64_debug 2 2 ex_bgra ex_nv12 [concat (repeat [110; 90; 90; 255] 4)] (zeros [4; 2]) m' /\
  (forall x y, 0 <= x < 2 -> 0 <= y < 2 ->
     within (10, 10, 10) (pixel ex_bgra 2 2 [repeat 100 16] x y) (pixel ex_bgra 2 2 [concat (repeat [110; 90; 90; 255] 4)] x y)) /\
  pixel ex_nv12 2 2 (dsts m) 0 0 = (102, 128, 128) /\ pixel ex_nv12 2 2 (dsts m') 0 0 = (95, 137, 127).
Proof.
  destruct set; (eexists; eexists; split; [check_success|split; [check_success|split; [|split]]];
    [intros x y Hx Hy; small x; small y; vm_compute; repeat split; discriminate|vm_compute; reflexivity|vm_compute; reflexivity]).
Qed.

(** C57: decoding makes a difference of [d] at most 3 [d] in red and green, 4 [d] in blue, for any two
    pixels of any two pictures in one colour space. Missing: blue from 512 on SSE2 and AVX2, for which it is false. *)
Theorem C57_decoded_partial : forall set set' T T' w w' h h' src src' dst dst' sb sb' db db' m m' d,
  successful_call (converters set) T w h src dst sb db m ->
  successful_call (converters set') T' w' h' src' dst' sb' db' m' ->
  is_rgb (i_pf src) = false -> is_rgb (i_pf src') = false -> is_rgb (i_pf dst) = true -> is_rgb (i_pf dst') = true ->
  i_cs src = i_cs src' -> 0 <= d ->
  forall x y x' y', 0 <= x < w -> 0 <= y < h -> 0 <= x' < w' -> 0 <= y' < h' ->
  within (d, d, d) (pixel src w h sb x y) (pixel src' w' h' sb' x' y') ->
  (set = X86 \/ set = Neon \/ blue_fits (i_cs src) (pixel src w h sb x y)) ->
  (set' = X86 \/ set' = Neon \/ blue_fits (i_cs src) (pixel src' w' h' sb' x' y')) ->
  within (3 * d, 3 * d, 4 * d) (pixel dst w h (dsts m) x y) (pixel dst' w' h' (dsts m') x' y').
Proof. exact decoded_similar. Qed.
Print Assumptions C57_decoded_partial.

(** Two neighbours: all samples differ by 1, blue by 4. And bright ones, where SSE2 and AVX2 fail. *)
Definition ex_neighbours : list (list Z) := [repeat 90 15 ++ [91]; repeat 137 15 ++ [138]; repeat 128 15 ++ [129]].
Example C57_decoded_example set : exists m,
  successful_call (converters set) T64_debug 16 1 ex_i444_16 ex_bgra ex_neighbours (blues 16) m /\
  within (1, 1, 1) (pixel ex_i444_16 16 1 ex_neighbours 14 0) (pixel ex_i444_16 16 1 ex_neighbours 15 0) /\
  blue_fits Bt601 (pixel ex_i444_16 16 1 ex_neighbours 14 0) /\ blue_fits Bt601 (pixel ex_i444_16 16 1 ex_neighbours 15 0) /\
  pixel ex_bgra 16 1 (dsts m) 14 0 = (86, 83, 104) /\ pixel ex_bgra 16 1 (dsts m) 15 0 = (89, 83, 108).
Proof.
  destruct set; (eexists; split; [check_success|split; [vm_compute; repeat split; discriminate|split; [vm_compute; reflexivity|split;
    [vm_compute; reflexivity|split; vm_compute; reflexivity]]]]).
Qed.
Definition ex_bright : list (list Z) := [repeat 250 16; repeat 246 15 ++ [247]; repeat 128 16].
Theorem C57_refuted : forall set, set = Sse2 \/ set = Avx2 -> exists m,
  successful_call (converters set) T64_release 16 1 ex_i444_16 ex_bgra ex_bright (blues 16) m /\
  within (1, 1, 1) (pixel ex_i444_16 16 1 ex_bright 14 0) (pixel ex_i444_16 16 1 ex_bright 15 0) /\
  snd (pixel ex_bgra 16 1 (dsts m) 14 0) = 255 /\ snd (pixel ex_bgra 16 1 (dsts m) 15 0) = 0.
Proof.
  intros set [-> | ->]; (eexists; split; [check_success|split; [vm_compute; repeat split; discriminate|split; vm_compute; reflexivity]]).
Qed.
Print Assumptions C57_refuted.
