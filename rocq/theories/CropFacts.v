(** Facts behind the theorem on rectangles of an image. *)
From Coq Require Import ZArith List Bool Lia ZifyBool.
Import ListNotations.
From Verif Require Import Base Fmt CpuInfo Lib Sets Spec SetSpec ApiSpec Api PropFacts
  PixelSpec ItuFacts PixelApi.
Open Scope Z_scope.

Lemma up_not_neon set w x : set <> Neon -> up_at set w x = false.
Proof. destruct set; [reflexivity..|congruence]. Qed.

Lemma crop_area pf (px px' : Z -> Z -> rgb) w' h' x0 y0 x y :
  (forall x y, 0 <= x < w' -> 0 <= y < h' -> px' x y = px (x0 + x) (y0 + y)) ->
  pf = I444 \/ (w' mod 2 = 0 /\ h' mod 2 = 0 /\ x0 mod 2 = 0 /\ y0 mod 2 = 0) ->
  0 <= x < w' -> 0 <= y < h' ->
  chroma_area pf px' x y = chroma_area pf px (x0 + x) (y0 + y).
Proof.
  intros H HP Hx Hy.
  assert (B : (w' mod 2 = 0 /\ h' mod 2 = 0 /\ x0 mod 2 = 0 /\ y0 mod 2 = 0) ->
    block_sum px' (x / 2) (y / 2) = block_sum px ((x0 + x) / 2) ((y0 + y) / 2)).
  { intros (E1 & E2 & E3 & E4). unfold block_sum.
    replace (2 * ((x0 + x) / 2)) with (x0 + 2 * (x / 2)) by (Z.div_mod_to_equations; lia).
    replace (2 * ((y0 + y) / 2)) with (y0 + 2 * (y / 2)) by (Z.div_mod_to_equations; lia).
    rewrite !H by (Z.div_mod_to_equations; lia). rewrite <- !Z.add_assoc. reflexivity. }
  unfold chroma_area. destruct HP as [-> | HP]; [rewrite H by lia; reflexivity|].
  destruct pf; rewrite ?B, ?H by (auto; lia); reflexivity.
Qed.

Lemma crop_pixels set set' T T' w h w' h' x0 y0 src src' dst dst' sb sb' db db' m m' :
  successful_call (converters set) T w h src dst sb db m ->
  successful_call (converters set') T' w' h' src' dst' sb' db' m' ->
  i_pf src = i_pf src' -> i_cs src = i_cs src' -> i_pf dst = i_pf dst' -> i_cs dst = i_cs dst' ->
  0 <= x0 -> x0 + w' <= w -> 0 <= y0 -> y0 + h' <= h ->
  (i_pf dst = I420 \/ i_pf dst = Nv12 -> x0 mod 2 = 0 /\ y0 mod 2 = 0) ->
  (forall x y, 0 <= x < w' -> 0 <= y < h' -> pixel src' w' h' sb' x y = pixel src w h sb (x0 + x) (y0 + y)) ->
  (is_rgb (i_pf src) = true -> is_rgb (i_pf dst) = false -> set <> Neon /\ set' <> Neon) ->
  forall x y, 0 <= x < w' -> 0 <= y < h' ->
  (is_rgb (i_pf src) = false -> saturates set (i_cs src) (pixel src' w' h' sb' x y) /\
                                saturates set' (i_cs src) (pixel src' w' h' sb' x y)) ->
  pixel dst' w' h' (dsts m') x y = pixel dst w h (dsts m) (x0 + x) (y0 + y).
Proof.
  intros H H' E1 E2 E3 E4 X0 X1 Y0 Y1 He HP HN x y Hx Hy HF.
  destruct (success_valid _ _ _ _ _ _ _ _ _ H) as (_ & _ & Sup).
  destruct (success_valid _ _ _ _ _ _ _ _ _ H') as (_ & (_ & _ & Zd) & _).
  destruct (is_rgb (i_pf src)) eqn:Rs.
  - assert (Rs' : is_rgb (i_pf src') = true) by congruence. destruct (is_rgb (i_pf dst)) eqn:Rd.
    + assert (Rd' : is_rgb (i_pf dst') = true) by congruence.
      rewrite (c21 _ _ _ _ _ _ _ _ _ H Rs Rd) by lia. rewrite (c21 _ _ _ _ _ _ _ _ _ H' Rs' Rd') by lia. apply HP; lia.
    + assert (Rd' : is_rgb (i_pf dst') = false) by congruence. destruct (HN eq_refl eq_refl) as [N N'].
      rewrite (result_ycc _ _ _ _ _ _ _ _ _ H Rs Rd) by lia.
      rewrite (result_ycc _ _ _ _ _ _ _ _ _ H' Rs' Rd') by lia. cbv zeta.
      rewrite !up_not_neon by assumption. rewrite <- E3, <- E4.
      rewrite (crop_area (i_pf dst) (pixel src w h sb) (pixel src' w' h' sb') w' h' x0 y0 x y HP); auto.
      * rewrite HP by lia. reflexivity.
      * rewrite <- E3 in Zd. destruct (i_pf dst); try discriminate; try (left; reflexivity); cbn [valid_size] in Zd;
          try (right; tauto). destruct (i_pf src); discriminate.
  - assert (Rs' : is_rgb (i_pf src') = false) by congruence.
    assert (Rd : is_rgb (i_pf dst) = true) by (destruct (i_pf src), (i_pf dst); try discriminate; reflexivity).
    assert (Rd' : is_rgb (i_pf dst') = true) by congruence. destruct (HF eq_refl) as [F F'].
    rewrite (c15_exact _ _ _ _ _ _ _ _ _ H Rs Rd) by (try lia; rewrite <- HP by lia; exact F).
    rewrite (c15_exact _ _ _ _ _ _ _ _ _ H' Rs' Rd') by (try lia; rewrite <- E2; exact F').
    rewrite HP by lia. rewrite E2. reflexivity.
Qed.
