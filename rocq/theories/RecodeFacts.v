(** Facts behind the theorems on every generation of RGB - I444 - RGB. *)
From Coq Require Import ZArith List Bool Lia.
Import ListNotations.
From Verif Require Import Base Fmt Wrappers CpuInfo Lib Sets Exec Spec SimdSpec SetSpec ApiSpec Api PixelFacts PropFacts
  Itu PixelSpec ItuFacts PixelProps PixelApi TripSpec TripFacts RgbTripSpec RgbTripFacts RecodeSpec.
Open Scope Z_scope.

Definition byte3 (p : rgb) : Prop := let '(r, g, b) := p in 0 <= r <= 255 /\ 0 <= g <= 255 /\ 0 <= b <= 255.

(** The blue of an encoded colour does not overflow. *)
Lemma encoded_fits up cs p : cs <> CsRgb -> byte3 p ->
  blue_fits cs (luma cs p, chroma up (cb_weights cs) 1 p, chroma up (cr_weights cs) 1 p).
Proof.
  destruct p as [[r g] b]. intros N (Hr & Hg & Hb).
  pose proof (luma_bounds cs r g b) as B1. set (y := luma cs (r, g, b)) in *. clearbody y.
  pose proof (chroma_bounds up (cb_weights cs) 1 (r, g, b) ltac:(auto)) as B2.
  set (cb := chroma up (cb_weights cs) 1 (r, g, b)) in *. clearbody cb.
  pose proof (chroma_bounds up (cr_weights cs) 1 (r, g, b) ltac:(auto)) as B3.
  set (cr := chroma up (cr_weights cs) 1 (r, g, b)) in *. clearbody cr.
  unfold blue_fits, rgb64.
  destruct cs; try congruence; cbn [rgb_coefs y_weights cb_weights cr_weights y_min dot snd] in *;
  repeat match goal with |- context [?a * ?k / 256] =>
    let v := fresh "v" in
    pose proof (floor_bounds (a * k) 256 eq_refl); set (v := a * k / 256) in *; clearbody v end;
  lia.
Qed.

Lemma encoded_eq up cs p : encoded up cs p = (luma cs p, chroma up (cb_weights cs) 1 p, chroma up (cr_weights cs) 1 p).
Proof. reflexivity. Qed.

(** One generation: every pixel, in every colour space. *)
Lemma one_generation set T set' T' w h im1 mid im2 b1 mb b2 m1 m2 :
  successful_call (converters set) T w h im1 mid b1 mb m1 ->
  successful_call (converters set') T' w h mid im2 (dsts m1) b2 m2 ->
  is_rgb (i_pf im1) = true -> i_pf mid = I444 -> is_rgb (i_pf im2) = true ->
  forall x y, 0 <= x < w -> 0 <= y < h ->
  pixel im2 w h (dsts m2) x y = recoded (up_at set w x) (i_cs mid) (pixel im1 w h b1 x y).
Proof.
  intros H1 H2 R1 Em R2 x y Hx Hy.
  assert (Rm : is_rgb (i_pf mid) = false) by (rewrite Em; reflexivity).
  pose proof (result_ycc _ _ _ _ _ _ _ _ _ H1 R1 Rm x y Hx Hy) as E.
  pose proof (success_bytes _ _ _ _ _ _ _ _ _ x y H1) as B.
  destruct (ycc_space _ _ _ _ _ _ _ _ _ H2) as [N _]. specialize (N Rm).
  rewrite Em in E. cbn [chroma_area] in E. cbv zeta in E.
  assert (Q : encoded (up_at set w x) (i_cs mid) (pixel im1 w h b1 x y) = pixel mid w h (dsts m1) x y) by (symmetry; exact E).
  unfold recoded. rewrite Q.
  apply (c15_exact _ _ _ _ _ _ _ _ _ H2 Rm R2 x y Hx Hy). rewrite E. right. right.
  apply encoded_fits; [exact N|]. unfold byte3. destruct (pixel im1 w h b1 x y) as [[r g] b]. exact B.
Qed.

Lemma every_generation cs w h im b n im' b' : rgb_generations cs w h im b n im' b' -> is_rgb (i_pf im) = true ->
  forall x y, 0 <= x < w -> 0 <= y < h -> recodings cs (pixel im w h b x y) n (pixel im' w h b' x y).
Proof.
  intros G R x y Hx Hy. induction G as [|n im1 b1 set T mid mb m1 set' T' im2 b2 m2 G IH H1 H2 Em Ec R2]; [constructor|].
  pose proof (rgb_kind _ _ _ _ _ _ _ _ G R) as R1.
  rewrite (one_generation set T set' T' w h im1 mid im2 b1 mb b2 m1 m2 H1 H2 R1 Em R2 x y Hx Hy), Ec.
  constructor. exact IH.
Qed.

Lemma fixed cs p n q : recodings cs p n q -> (forall up, recoded up cs p = p) -> q = p.
Proof. intros C F. induction C as [|k q up C IH]; [reflexivity|]. rewrite IH. apply F. Qed.

Lemma stays cs w h im b n im' b' : rgb_generations cs w h im b n im' b' -> is_rgb (i_pf im) = true ->
  forall x y, 0 <= x < w -> 0 <= y < h ->
  (forall up, recoded up cs (pixel im w h b x y) = pixel im w h b x y) -> pixel im' w h b' x y = pixel im w h b x y.
Proof.
  intros G R x y Hx Hy F. exact (fixed _ _ _ _ (every_generation _ _ _ _ _ _ _ _ G R x y Hx Hy) F).
Qed.

Lemma changes cs w h im b im' b' : rgb_generations cs w h im b 1 im' b' -> is_rgb (i_pf im) = true ->
  forall x y, 0 <= x < w -> 0 <= y < h ->
  (forall up, recoded up cs (pixel im w h b x y) <> pixel im w h b x y) -> pixel im' w h b' x y <> pixel im w h b x y.
Proof.
  intros G R x y Hx Hy F. pose proof (every_generation _ _ _ _ _ _ _ _ G R x y Hx Hy) as C.
  inversion C as [|k q up C0 E1 E2]; subst. inversion C0; subst. apply F.
Qed.

(** Where there is no tie, there is one answer only. *)
Lemma no_tie_same cs p : no_tie cs p -> recoded true cs p = recoded false cs p.
Proof.
  assert (K : forall d, d mod 65536 <> 32768 -> round_up d 65536 = round_down d 65536).
  { intros d H. unfold round_down, round_up. pose proof (Z.div_mod d 65536 ltac:(lia)) as E.
    pose proof (Z.mod_pos_bound d 65536 eq_refl) as M. set (q := d / 65536) in *. set (r := d mod 65536) in *. clearbody q r. subst d.
    assert (r < 32768 \/ 32768 < r) as [S|S] by lia.
    - rewrite <- (Z.div_unique (2 * (65536 * q + r) + 65536) (2 * 65536) q (2 * r + 65536)) by lia.
      rewrite <- (Z.div_unique (2 * - (65536 * q + r) + 65536) (2 * 65536) (- q) (65536 - 2 * r)) by lia. lia.
    - rewrite <- (Z.div_unique (2 * (65536 * q + r) + 65536) (2 * 65536) (q + 1) (2 * r - 65536)) by lia.
      rewrite <- (Z.div_unique (2 * - (65536 * q + r) + 65536) (2 * 65536) (- (q + 1)) (196608 - 2 * r)) by lia. lia. }
  intros [H1 H2]. unfold recoded, encoded. rewrite (K _ H1), (K _ H2). reflexivity.
Qed.

(** In the limited range spaces, once a colour is decoded without clamping it stays. *)
Lemma settles up cs p : limited cs = true -> byte3 p ->
  representable cs (encoded up cs p) -> forall up', recoded up' cs (recoded up cs p) = recoded up cs p.
Proof.
  intros L B R up'. assert (NC : cs <> CsRgb) by (destruct cs; discriminate).
  assert (Bs : let '(l, cb, cr) := encoded up cs p in 0 <= l <= 255 /\ 0 <= cb <= 255 /\ 0 <= cr <= 255).
  { destruct p as [[r g] b]. rewrite encoded_eq. destruct B as (Hr & Hg & Hb).
    pose proof (luma_bounds cs r g b) as B1.
    pose proof (chroma_bounds up (cb_weights cs) 1 (r, g, b) ltac:(auto)) as B2.
    pose proof (chroma_bounds up (cr_weights cs) 1 (r, g, b) ltac:(auto)) as B3.
    destruct cs; try discriminate L; cbn [y_weights cb_weights cr_weights y_min dot] in *; cbv zeta in *; lia. }
  unfold recoded at 2 3. destruct (encoded up cs p) as [[l cb] cr].
  pose proof (reencoded up' cs l cb cr L) as Q. cbv zeta in Q.
  destruct Bs as (Bl & Bb & Br). specialize (Q Bl Bb Br R).
  unfold recoded. change (encoded up' cs (ycc_to_rgb cs l cb cr) = (l, cb, cr)) in Q. rewrite Q. reflexivity.
Qed.

Lemma c52_pixel cs w h im b im1 b1 n im' b' : rgb_generations cs w h im b 1 im1 b1 -> rgb_generations cs w h im1 b1 n im' b' ->
  is_rgb (i_pf im) = true -> limited cs = true ->
  forall x y, 0 <= x < w -> 0 <= y < h -> (forall up, representable cs (encoded up cs (pixel im w h b x y))) ->
  pixel im' w h b' x y = pixel im1 w h b1 x y.
Proof.
  intros G1 G R L x y Hx Hy P. apply (stays _ _ _ _ _ _ _ _ G (rgb_kind _ _ _ _ _ _ _ _ G1 R) x y Hx Hy).
  pose proof (every_generation _ _ _ _ _ _ _ _ G1 R x y Hx Hy) as C.
  inversion C as [|k q up C0 E1 E2]; subst. inversion C0; subst. apply settles; auto.
  inversion G1 as [|n' im0 b0 set T mid mb m1 set' T' im2 b2 m2 G0 H1 H2 Em Ec R2]; subst. inversion G0; subst.
  pose proof (success_bytes _ _ _ _ _ _ _ _ _ x y H1) as B. unfold byte3. destruct (pixel im0 w h b0 x y) as [[r g] bb]. exact B.
Qed.

Lemma stays_exactly cs w h im b : is_rgb (i_pf im) = true ->
  forall x y, 0 <= x < w -> 0 <= y < h -> let p := pixel im w h b x y in
  ((forall up, recoded up cs p = p) ->
     forall n im' b', rgb_generations cs w h im b n im' b' -> pixel im' w h b' x y = p) /\
  ((forall up, recoded up cs p <> p) ->
     forall im' b', rgb_generations cs w h im b 1 im' b' -> pixel im' w h b' x y <> p) /\
  (no_tie cs p -> recoded true cs p = recoded false cs p).
Proof.
  intros R x y Hx Hy p. split; [|split].
  - intros F n im' b' G. exact (stays _ _ _ _ _ _ _ _ G R x y Hx Hy F).
  - intros F im' b' G. exact (changes _ _ _ _ _ _ _ G R x y Hx Hy F).
  - apply no_tie_same.
Qed.
