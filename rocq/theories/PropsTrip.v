(** Properties of decoding a YCbCr image to RGB and encoding it again, for the four instruction
    sets. Each theorem is followed by its assumptions and by a concrete case. *)
From Coq Require Import ZArith QArith List Bool Lia.
Import ListNotations.
From Verif Require Import Base Fmt Exec CpuInfo Lib Sets Spec SimdSpec SetSpec ApiSpec Api PropsConvert
  Itu PixelSpec PixelApi PropsPixel TripSpec TripFacts.
Open Scope Z_scope.

(** C48: a pixel decoded without clamping, and with it all pixels that share its chroma, comes
    back unchanged in the limited range spaces, as (y, cb + 1, cr + 1) in full-range BT.601, as
    (y or y + 1, cb + 1, cr or cr + 1) in full-range BT.709. From I444 to a subsampled format,
    the pixels that will share their chroma have to have the same one. Missing: the full range
    spaces, and colours outside of RGB, for which it is false ([C48_refuted]). *)
Theorem C48_recoded_partial : forall set set' T T' w h src mid dst sb mb db m1 m2,
  successful_call (converters set) T w h src mid sb mb m1 ->
  successful_call (converters set') T' w h mid dst (dsts m1) db m2 ->
  is_rgb (i_pf src) = false -> is_rgb (i_pf mid) = true -> is_rgb (i_pf dst) = false -> i_cs dst = i_cs src ->
  forall x y, 0 <= x < w -> 0 <= y < h ->
  (forall x' y', shares_chroma (i_pf dst) x y x' y' ->
     representable (i_cs src) (pixel src w h sb x' y') /\
     (i_pf src = I444 -> snd (fst (pixel src w h sb x' y')) = snd (fst (pixel src w h sb x y)) /\
                         snd (pixel src w h sb x' y') = snd (pixel src w h sb x y))) ->
  regenerated (i_cs src) (pixel src w h sb x y) (pixel dst w h (dsts m2) x y).
Proof. exact c48. Qed.
Print Assumptions C48_recoded_partial.

(** C48: this is so for the colours whose exact RGB, by BT.601 or BT.709, is at least 4 away
    from 0 and from 255. *)
Theorem C48_inside_partial : forall set set' T T' w h src mid dst sb mb db m1 m2,
  successful_call (converters set) T w h src mid sb mb m1 ->
  successful_call (converters set') T' w h mid dst (dsts m1) db m2 ->
  is_rgb (i_pf src) = false -> is_rgb (i_pf mid) = true -> is_rgb (i_pf dst) = false -> i_cs dst = i_cs src ->
  forall x y, 0 <= x < w -> 0 <= y < h ->
  (forall x' y', shares_chroma (i_pf dst) x y x' y' ->
     well_inside (i_cs src) (pixel src w h sb x' y') /\
     (i_pf src = I444 -> snd (fst (pixel src w h sb x' y')) = snd (fst (pixel src w h sb x y)) /\
                         snd (pixel src w h sb x' y') = snd (pixel src w h sb x y))) ->
  regenerated (i_cs src) (pixel src w h sb x y) (pixel dst w h (dsts m2) x y).
Proof. exact c48_inside. Qed.
Print Assumptions C48_inside_partial.

(** I420, 18x2, BT.709: through BGRA, on any instruction set, the same bytes. *)
Definition ex_film : list (list Z) := [map (fun i => 90 + 2 * i) (zrange 0 36); map (fun i => 100 + 7 * i) (zrange 0 9);
  map (fun i => 150 - 5 * i) (zrange 0 9)].
Example ex_film_recoded set : exists m1 m2,
  successful_call (converters set) T64_debug 18 2 ex_i420_709 ex_bgra ex_film (zeros [144]) m1 /\
  successful_call (converters set) T64_debug 18 2 ex_bgra ex_i420_709 (dsts m1) (zeros [36; 9; 9]) m2 /\
  dsts m2 = ex_film.
Proof. destruct set; eexists; eexists; (split; [check_success|split; [check_success|reflexivity]]). Qed.
Example ex_film_representable :
  representable Bt709 (pixel ex_i420_709 18 2 ex_film 5 1) /\ pixel ex_i420_709 18 2 ex_film 5 1 = (136, 114, 140).
Proof. vm_compute. repeat split; congruence. Qed.
Example ex_film_inside : well_inside Bt709 (pixel ex_i420_709 18 2 ex_film 5 1).
Proof. vm_compute. repeat split; congruence. Qed.

(** C48: in the limited range spaces no number of generations changes a pixel of an image
    decoded without clamping. *)
Theorem C48_lossless : forall w h im b n im' b', generations w h im b n im' b' ->
  is_rgb (i_pf im) = false -> limited (i_cs im) = true ->
  (forall x y, 0 <= x < w -> 0 <= y < h -> representable (i_cs im) (pixel im w h b x y)) ->
  forall x y, 0 <= x < w -> 0 <= y < h -> pixel im' w h b' x y = pixel im w h b x y.
Proof. exact c48_lossless. Qed.
Print Assumptions C48_lossless.
Example ex_film_twice : generations 18 2 ex_i420_709 ex_film 2 ex_i420_709 ex_film.
Proof.
  destruct (ex_film_recoded Avx2) as (m1 & m2 & H1 & H2 & E). destruct (ex_film_recoded Neon) as (n1 & n2 & G1 & G2 & E').
  rewrite <- E' at 2. eapply Gen_S; [|exact G1|exact G2|reflexivity|reflexivity|reflexivity].
  rewrite <- E at 2. eapply Gen_S; [apply Gen_0|exact H1|exact H2|reflexivity|reflexivity|reflexivity].
Qed.
Example ex_film_unclamped x y : 0 <= x < 18 -> 0 <= y < 2 -> representable Bt709 (pixel ex_i420_709 18 2 ex_film x y).
Proof.
  intros Hx Hy.
  assert (A : forallb (fun y => forallb (fun x =>
    let '(l, cb, cr) := pixel ex_i420_709 18 2 ex_film x y in let '(r, g, b) := rgb64 Bt709 l cb cr in
    (0 <=? r) && (r <? 16384) && (0 <=? g) && (g <? 16384) && (0 <=? b) && (b <? 16384)) (zrange 0 18)) (zrange 0 2) = true)
    by (vm_compute; reflexivity).
  rewrite forallb_forall in A. specialize (A y (proj2 (In_zrange 0 2 y) Hy)).
  rewrite forallb_forall in A. specialize (A x (proj2 (In_zrange 0 18 x) Hx)). unfold representable.
  destruct (pixel ex_i420_709 18 2 ex_film x y) as [[l cb] cr]. destruct (rgb64 Bt709 l cb cr) as [[r g] b].
  rewrite !andb_true_iff, !Z.ltb_lt, !Z.leb_le in A. lia.
Qed.

(** C48: in full-range BT.601 every generation adds 1 to both chroma values: after [n] of them
    the picture is [n] steps away from the first one. *)
Theorem C48_drift : forall w h im b n im' b', generations w h im b n im' b' ->
  is_rgb (i_pf im) = false -> i_cs im = Bt601FR ->
  (forall x y k, 0 <= x < w -> 0 <= y < h -> 0 <= k < Z.of_nat n ->
     let '(l, cb, cr) := pixel im w h b x y in representable Bt601FR (l, cb + k, cr + k)) ->
  forall x y, 0 <= x < w -> 0 <= y < h ->
  let '(l, cb, cr) := pixel im w h b x y in
  pixel im' w h b' x y = (l, cb + Z.of_nat n, cr + Z.of_nat n).
Proof. exact c48_shifted. Qed.
Print Assumptions C48_drift.
Definition ex_jpeg : image := Image I444 Bt601FR 3 None.
Example ex_jpeg_twice : exists b, generations 1 1 ex_jpeg [[100]; [128]; [128]] 2 ex_jpeg b /\ b = [[100]; [130]; [130]].
Proof.
  eexists. split.
  - eapply (Gen_S _ _ _ _ _ _ _ X86 T64_debug ex_bgra (zeros [4]) _ Neon T64_debug ex_jpeg (zeros [1; 1; 1])).
    + eapply (Gen_S _ _ _ _ _ _ _ Sse2 T64_debug ex_bgra (zeros [4]) _ Avx2 T64_debug ex_jpeg (zeros [1; 1; 1])).
      * apply Gen_0.
      * check_success.
      * check_success.
      * reflexivity.
      * reflexivity.
      * reflexivity.
    + check_success.
    + check_success.
    + reflexivity.
    + reflexivity.
    + reflexivity.
  - reflexivity.
Qed.

Example ex_jpeg_unclamped k : 0 <= k < 2 -> representable Bt601FR (100, 128 + k, 128 + k).
Proof. intros H. assert (E : k = 0 \/ k = 1) by lia. destruct E; subst; vm_compute; repeat split; congruence. Qed.

(** C48 does not hold in full: grey 100 of full-range BT.601 comes back with chroma 129, and a
    colour of BT.601 outside of RGB comes back as another one. *)
Theorem C48_refuted : forall set,
  (exists m1 m2,
    successful_call (converters set) T64_debug 1 1 ex_jpeg ex_bgra [[100]; [128]; [128]] (zeros [4]) m1 /\
    successful_call (converters set) T64_debug 1 1 ex_bgra ex_jpeg (dsts m1) (zeros [1; 1; 1]) m2 /\
    dsts m2 = [[100]; [129]; [129]]) /\
  (exists m1 m2,
    successful_call (converters set) T64_debug 1 1 ex_i444_16 ex_bgra [[16]; [16]; [240]] (zeros [4]) m1 /\
    successful_call (converters set) T64_debug 1 1 ex_bgra ex_i444_16 (dsts m1) (zeros [1; 1; 1]) m2 /\
    dsts m2 = [[62]; [101]; [207]]).
Proof.
  intros set. split; destruct set; eexists; eexists; (split; [check_success|split; [check_success|reflexivity]]).
Qed.
Print Assumptions C48_refuted.
