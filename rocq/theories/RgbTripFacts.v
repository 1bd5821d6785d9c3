(** Facts behind the theorems on repeated round trips RGB - I444 - RGB. *)
From Coq Require Import ZArith List Bool Lia.
Import ListNotations.
From Verif Require Import Base Fmt Wrappers CpuInfo Lib Sets Exec Spec SimdSpec SetSpec ApiSpec Api PixelFacts PropFacts
  Itu PixelSpec ItuFacts PixelProps PixelApi TripSpec TripFacts RgbTripSpec.
Open Scope Z_scope.

Lemma encoded_representable up cs p : limited cs = true -> off_the_ends p ->
  representable cs (luma cs p, chroma up (cb_weights cs) 1 p, chroma up (cr_weights cs) 1 p).
Proof.
  destruct p as [[r g] b]. intros L (Hr & Hg & Hb).
  pose proof (luma_bounds cs r g b) as B1. set (y := luma cs (r, g, b)) in *. clearbody y.
  pose proof (chroma_bounds up (cb_weights cs) 1 (r, g, b) ltac:(auto)) as B2.
  set (cb := chroma up (cb_weights cs) 1 (r, g, b)) in *. clearbody cb.
  pose proof (chroma_bounds up (cr_weights cs) 1 (r, g, b) ltac:(auto)) as B3.
  set (cr := chroma up (cr_weights cs) 1 (r, g, b)) in *. clearbody cr.
  unfold representable, rgb64.
  destruct cs; try discriminate L; cbn [rgb_coefs y_weights cb_weights cr_weights y_min dot] in *;
  repeat match goal with |- context [?a * ?k / 256] =>
    let v := fresh "v" in
    pose proof (floor_bounds (a * k) 256 eq_refl); set (v := a * k / 256) in *; clearbody v end;
  (split; [|split]); lia.
Qed.

(** One colour: encoded, decoded and encoded again, as after the first time. *)
Lemma reencoded up cs y cb cr : limited cs = true -> 0 <= y <= 255 -> 0 <= cb <= 255 -> 0 <= cr <= 255 ->
  representable cs (y, cb, cr) ->
  let p := ycc_to_rgb cs y cb cr in
  (luma cs p, chroma up (cb_weights cs) 1 p, chroma up (cr_weights cs) 1 p) = (y, cb, cr).
Proof.
  intros L Hy Hb Hr R p. pose proof (returns_limited cs y cb cr L Hy Hb Hr R) as Q. unfold returns in Q. cbv zeta in Q.
  fold p in Q. clearbody p. assert (D : drift cs = ((0, 0), (0, 0), (0, 0))) by (destruct cs; try discriminate L; reflexivity).
  rewrite D in Q. destruct Q as (Q1 & Q2 & Q3). apply round_up_rounds in Q1. unfold rounds in Q2, Q3.
  pose proof (chroma_rounds up (cb_weights cs) 1 p cb (0, 0) (or_introl eq_refl) ltac:(cbn [fst snd] in *; lia)) as C2.
  pose proof (chroma_rounds up (cr_weights cs) 1 p cr (0, 0) (or_introl eq_refl) ltac:(cbn [fst snd] in *; lia)) as C3.
  cbn [fst snd] in *. unfold luma. rewrite !pair_equal_spec. lia.
Qed.

(** Encoding and decoding an image. *)
Lemma encode_decode set T set' T' w h im1 mid im2 b1 mb b2 m1 m2 :
  successful_call (converters set) T w h im1 mid b1 mb m1 ->
  successful_call (converters set') T' w h mid im2 (dsts m1) b2 m2 ->
  is_rgb (i_pf im1) = true -> i_pf mid = I444 -> limited (i_cs mid) = true -> is_rgb (i_pf im2) = true ->
  forall x y, 0 <= x < w -> 0 <= y < h ->
  exists l cb cr, 0 <= l <= 255 /\ 0 <= cb <= 255 /\ 0 <= cr <= 255 /\
  (let p := pixel im1 w h b1 x y in
   (l, cb, cr) = (luma (i_cs mid) p, chroma (up_at set w x) (cb_weights (i_cs mid)) 1 p,
                  chroma (up_at set w x) (cr_weights (i_cs mid)) 1 p)) /\
  (representable (i_cs mid) (l, cb, cr) -> pixel im2 w h (dsts m2) x y = ycc_to_rgb (i_cs mid) l cb cr).
Proof.
  intros H1 H2 R1 Em L R2 x y Hx Hy.
  assert (Rm : is_rgb (i_pf mid) = false) by (rewrite Em; reflexivity).
  pose proof (result_ycc _ _ _ _ _ _ _ _ _ H1 R1 Rm x y Hx Hy) as E.
  pose proof (success_bytes _ _ _ _ _ _ _ _ _ x y H2) as B.
  rewrite Em in E. cbn [chroma_area] in E. cbv zeta in E.
  destruct (pixel mid w h (dsts m1) x y) as [[l cb] cr] eqn:EP.
  exists l, cb, cr. split; [tauto|]. split; [tauto|]. split; [tauto|]. split; [exact E|].
  intros R. rewrite (c15_exact _ _ _ _ _ _ _ _ _ H2 Rm R2 x y Hx Hy); rewrite EP; [reflexivity|].
  apply representable_saturates, R.
Qed.

Lemma rgb_kind cs w h im b n im' b' : rgb_generations cs w h im b n im' b' -> is_rgb (i_pf im) = true -> is_rgb (i_pf im') = true.
Proof. induction 1; auto. Qed.

(** What an image is after the first time. *)
Definition settled (cs : color_space) (w h : Z) (im : image) (b : list (list Z)) : Prop :=
  forall x y, 0 <= x < w -> 0 <= y < h -> exists l cb cr, 0 <= l <= 255 /\ 0 <= cb <= 255 /\ 0 <= cr <= 255 /\
    representable cs (l, cb, cr) /\ pixel im w h b x y = ycc_to_rgb cs l cb cr.

Lemma settled_step set T set' T' w h im1 mid im2 b1 mb b2 m1 m2 :
  successful_call (converters set) T w h im1 mid b1 mb m1 ->
  successful_call (converters set') T' w h mid im2 (dsts m1) b2 m2 ->
  is_rgb (i_pf im1) = true -> i_pf mid = I444 -> limited (i_cs mid) = true -> is_rgb (i_pf im2) = true ->
  settled (i_cs mid) w h im1 b1 ->
  settled (i_cs mid) w h im2 (dsts m2) /\
  forall x y, 0 <= x < w -> 0 <= y < h -> pixel im2 w h (dsts m2) x y = pixel im1 w h b1 x y.
Proof.
  intros H1 H2 R1 Em L R2 S.
  assert (K : forall x y, 0 <= x < w -> 0 <= y < h -> exists l cb cr, 0 <= l <= 255 /\ 0 <= cb <= 255 /\ 0 <= cr <= 255 /\
      representable (i_cs mid) (l, cb, cr) /\ pixel im1 w h b1 x y = ycc_to_rgb (i_cs mid) l cb cr /\
      pixel im2 w h (dsts m2) x y = ycc_to_rgb (i_cs mid) l cb cr).
  { intros x y Hx Hy. destruct (S x y Hx Hy) as (l & cb & cr & Bl & Bb & Br & Rp & E).
    destruct (encode_decode _ _ _ _ _ _ _ _ _ _ _ _ _ _ H1 H2 R1 Em L R2 x y Hx Hy) as (l' & cb' & cr' & _ & _ & _ & E1 & E2).
    cbv zeta in E1. rewrite E in E1. pose proof (reencoded (up_at set w x) _ _ _ _ L Bl Bb Br Rp) as Q. cbv zeta in Q.
    rewrite Q in E1. rewrite E1 in E2. rewrite !pair_equal_spec in E1. destruct E1 as [[-> ->] ->].
    exists l, cb, cr. repeat (split; [assumption|]). exact (E2 Rp). }
  split; intros x y Hx Hy; destruct (K x y Hx Hy) as (l & cb & cr & Bl & Bb & Br & Rp & E & E').
  - exists l, cb, cr. auto 6.
  - congruence.
Qed.

Lemma first_step set T set' T' w h im1 mid im2 b1 mb b2 m1 m2 :
  successful_call (converters set) T w h im1 mid b1 mb m1 ->
  successful_call (converters set') T' w h mid im2 (dsts m1) b2 m2 ->
  is_rgb (i_pf im1) = true -> i_pf mid = I444 -> limited (i_cs mid) = true -> is_rgb (i_pf im2) = true ->
  (forall x y, 0 <= x < w -> 0 <= y < h -> off_the_ends (pixel im1 w h b1 x y)) ->
  settled (i_cs mid) w h im2 (dsts m2).
Proof.
  intros H1 H2 R1 Em L R2 HO x y Hx Hy.
  destruct (encode_decode _ _ _ _ _ _ _ _ _ _ _ _ _ _ H1 H2 R1 Em L R2 x y Hx Hy) as (l & cb & cr & Bl & Bb & Br & E1 & E2).
  cbv zeta in E1. exists l, cb, cr. repeat (split; [assumption|]).
  assert (R : representable (i_cs mid) (l, cb, cr)) by (rewrite E1; apply encoded_representable; auto).
  auto.
Qed.

Lemma settled_all cs w h im b n im' b' : rgb_generations cs w h im b n im' b' -> is_rgb (i_pf im) = true -> limited cs = true ->
  settled cs w h im b ->
  settled cs w h im' b' /\ forall x y, 0 <= x < w -> 0 <= y < h -> pixel im' w h b' x y = pixel im w h b x y.
Proof.
  intros G R L S. induction G as [|n im1 b1 set T mid mb m1 set' T' im2 b2 m2 G IH H1 H2 Em Ec R2]; [auto|].
  destruct IH as [S1 E1]. pose proof (rgb_kind _ _ _ _ _ _ _ _ G R) as R1.
  destruct (settled_step set T set' T' w h im1 mid im2 b1 mb b2 m1 m2 H1 H2 R1 Em) as [S2 E2]; try rewrite Ec; auto.
  split; [rewrite <- Ec; exact S2|]. intros x y Hx Hy. rewrite (E2 x y Hx Hy). auto.
Qed.

Lemma first_settled cs w h im b im1 b1 : rgb_generations cs w h im b 1 im1 b1 -> is_rgb (i_pf im) = true -> limited cs = true ->
  (forall x y, 0 <= x < w -> 0 <= y < h -> off_the_ends (pixel im w h b x y)) ->
  settled cs w h im1 b1.
Proof.
  intros G R L HO. inversion G as [|n im0 b0 set T mid mb m1 set' T' im2 b2 m2 G0 H1 H2 Em Ec R2]; subst.
  inversion G0; subst. eapply first_step; eauto.
Qed.

(** All further generations leave the image as it is. *)
Lemma c52 cs w h im b im1 b1 n im' b' : rgb_generations cs w h im b 1 im1 b1 -> rgb_generations cs w h im1 b1 n im' b' ->
  is_rgb (i_pf im) = true -> limited cs = true ->
  (forall x y, 0 <= x < w -> 0 <= y < h -> off_the_ends (pixel im w h b x y)) ->
  forall x y, 0 <= x < w -> 0 <= y < h -> pixel im' w h b' x y = pixel im1 w h b1 x y.
Proof.
  intros G1 G R L HO. pose proof (first_settled _ _ _ _ _ _ _ G1 R L HO) as S.
  eapply settled_all; eauto. eapply rgb_kind; eauto.
Qed.

Lemma rgb_split cs w h im b n im' b' : rgb_generations cs w h im b (S n) im' b' ->
  exists im1 b1, rgb_generations cs w h im b 1 im1 b1 /\ rgb_generations cs w h im1 b1 n im' b'.
Proof.
  revert im' b'. induction n; intros im' b' G.
  - exists im', b'. split; [exact G|constructor].
  - inversion G as [|n' im0 b0 set T mid mb m1 set' T' im2 b2 m2 G0 H1 H2 Em Ec R2]; subst.
    destruct (IHn _ _ G0) as (im1 & b1 & Ga & Gb). exists im1, b1. split; [exact Ga|].
    eapply Rgb_S; eauto.
Qed.

(** Any number of generations: no more than the error of one. *)
Lemma c52_bounded cs w h im b n im' b' : rgb_generations cs w h im b n im' b' -> is_rgb (i_pf im) = true -> limited cs = true ->
  (forall x y, 0 <= x < w -> 0 <= y < h -> off_the_ends (pixel im w h b x y)) ->
  forall x y, 0 <= x < w -> 0 <= y < h -> within (trip_error cs) (pixel im' w h b' x y) (pixel im w h b x y).
Proof.
  intros G R L HO x y Hx Hy. destruct n as [|n].
  - inversion G; subst. destruct (pixel im' w h b' x y) as [[r g] b]. unfold within, trip_error.
    destruct cs; try discriminate L; rewrite !Z.sub_diag; cbn; lia.
  - destruct (rgb_split _ _ _ _ _ _ _ _ G) as (im1 & b1 & Ga & Gb).
    rewrite (c52 _ _ _ _ _ _ _ _ _ _ Ga Gb R L HO x y Hx Hy).
    inversion Ga as [|n' im0 b0 set T mid mb m1 set' T' im2 b2 m2 G0 H1 H2 Em Ec R2]; subst.
    inversion G0; subst. eapply c33; eauto.
Qed.
