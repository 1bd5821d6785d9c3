(** Proofs about chains of conversions. *)
From Coq Require Import ZArith List Bool Lia.
Import ListNotations.
From Verif Require Import Base Fmt Wrappers CpuInfo Lib Sets Spec SimdSpec SetSpec ApiSpec Api PropFacts
  Itu PixelSpec ItuFacts PixelApi CropFacts RouteSpec.
Open Scope Z_scope.

Lemma reordered_kind w h im b im' b' : reordered w h im b im' b' -> is_rgb (i_pf im) = true -> is_rgb (i_pf im') = true.
Proof. intros G R. destruct G; auto. Qed.

Lemma reordered_pixels w h im b im' b' : reordered w h im b im' b' -> is_rgb (i_pf im) = true ->
  forall x y, 0 <= x < w -> 0 <= y < h -> pixel im' w h b' x y = pixel im w h b x y.
Proof.
  intros G R x y Hx Hy. induction G as [|im1 b1 set T im2 b2 m2 G IH HS R2]; [reflexivity|].
  rewrite (c21 _ _ _ _ _ _ _ _ _ HS (reordered_kind _ _ _ _ _ _ G R) R2 x y Hx Hy). exact IH.
Qed.

Lemma area_ext set T w h src dst sb db m px px' x y : successful_call (converters set) T w h src dst sb db m ->
  0 <= x < w -> 0 <= y < h -> is_rgb (i_pf dst) = false ->
  (forall x y, 0 <= x < w -> 0 <= y < h -> px x y = px' x y) ->
  chroma_area (i_pf dst) px x y = chroma_area (i_pf dst) px' x y.
Proof.
  intros HS Hx Hy Rd HP. destruct (success_valid _ _ _ _ _ _ _ _ _ HS) as (_ & (_ & _ & Zd) & Sup).
  unfold chroma_area. destruct (i_pf dst) eqn:E; try discriminate Rd; cbn in Zd.
  - rewrite HP by assumption. reflexivity.
  - destruct (i_pf src); discriminate Sup.
  - destruct Zd as [Zw Zh]. pose proof (half_range x w Zw Hx). pose proof (half_range y h Zh Hy).
    pose proof (Z.div_mod w 2 ltac:(lia)). pose proof (Z.div_mod h 2 ltac:(lia)).
    unfold block_sum. rewrite !HP by lia. reflexivity.
  - destruct Zd as [Zw Zh]. pose proof (half_range x w Zw Hx). pose proof (half_range y h Zh Hy).
    pose proof (Z.div_mod w 2 ltac:(lia)). pose proof (Z.div_mod h 2 ltac:(lia)).
    unfold block_sum. rewrite !HP by lia. reflexivity.
Qed.

(** Equal RGB images, in whatever formats, are encoded alike. *)
Lemma encoded_alike set set' T T' w h im im' dst dst' b b' db db' m1 m2 :
  successful_call (converters set) T w h im dst b db m1 ->
  successful_call (converters set') T' w h im' dst' b' db' m2 ->
  is_rgb (i_pf im) = true -> is_rgb (i_pf im') = true -> is_rgb (i_pf dst) = false ->
  i_pf dst' = i_pf dst -> i_cs dst' = i_cs dst -> set = set' \/ set <> Neon /\ set' <> Neon ->
  (forall x y, 0 <= x < w -> 0 <= y < h -> pixel im w h b x y = pixel im' w h b' x y) ->
  forall x y, 0 <= x < w -> 0 <= y < h -> pixel dst w h (dsts m1) x y = pixel dst' w h (dsts m2) x y.
Proof.
  intros H1 H2 R R' Rd Ep Ec Es HP x y Hx Hy.
  rewrite (result_ycc _ _ _ _ _ _ _ _ _ H1 R Rd x y Hx Hy).
  rewrite (result_ycc _ _ _ _ _ _ _ _ _ H2 R' ltac:(rewrite Ep; exact Rd) x y Hx Hy).
  cbv zeta. rewrite Ep, Ec. rewrite (area_ext _ _ _ _ _ _ _ _ _ _ _ x y H1 Hx Hy Rd HP).
  rewrite (HP x y Hx Hy). destruct (chroma_area _ _ _ _) as [n p].
  assert (EU : up_at set w x = up_at set' w x).
  { destruct Es as [<- | [N N']]; [reflexivity|]. unfold up_at. destruct set, set'; congruence. }
  rewrite EU. reflexivity.
Qed.

Lemma c54_encoded set set' T T' w h im im' dst dst' b b' db db' m1 m2 :
  reordered w h im b im' b' -> is_rgb (i_pf im) = true ->
  successful_call (converters set) T w h im dst b db m1 ->
  successful_call (converters set') T' w h im' dst' b' db' m2 ->
  is_rgb (i_pf dst) = false -> i_pf dst' = i_pf dst -> i_cs dst' = i_cs dst ->
  set = set' \/ set <> Neon /\ set' <> Neon ->
  forall x y, 0 <= x < w -> 0 <= y < h -> pixel dst w h (dsts m1) x y = pixel dst' w h (dsts m2) x y.
Proof.
  intros G R H1 H2 Rd Ep Ec Es. eapply encoded_alike; eauto.
  - eapply reordered_kind; eauto.
  - intros x y Hx Hy. symmetry. eapply reordered_pixels; eauto.
Qed.

Lemma c54_decoded set set' T T' w h src im im' im'' sb b b' b'' m1 m2 :
  successful_call (converters set) T w h src im sb b m1 -> reordered w h im (dsts m1) im' b' ->
  successful_call (converters set') T' w h src im'' sb b'' m2 ->
  is_rgb (i_pf src) = false -> is_rgb (i_pf im) = true -> is_rgb (i_pf im'') = true ->
  forall x y, 0 <= x < w -> 0 <= y < h ->
  saturates set (i_cs src) (pixel src w h sb x y) -> saturates set' (i_cs src) (pixel src w h sb x y) ->
  pixel im' w h b' x y = pixel im'' w h (dsts m2) x y.
Proof.
  intros H1 G H2 Rs R R2 x y Hx Hy F1 F2. rewrite (reordered_pixels _ _ _ _ _ _ G R x y Hx Hy).
  eapply (c24_fits set set'); eauto.
Qed.

Lemma c54_opaque set T w h src im sb b m1 im' b' :
  successful_call (converters set) T w h src im sb b m1 -> reordered w h im (dsts m1) im' b' ->
  i_pf im' = Bgra \/ i_pf im' = Rgba ->
  forall x y, 0 <= x < w -> 0 <= y < h -> sample b' (plane_of im' w h 0) y (4 * x + 3) = 255.
Proof. intros H1 G E x y Hx Hy. destruct G; eapply c20_opaque; eauto. Qed.

Lemma c54_transcoded seta Ta w h src im sb b ma im' b' setb Tb dst db mb
      setc Tc jm c mc jm' c' setd Td dst' db' md :
  successful_call (converters seta) Ta w h src im sb b ma -> reordered w h im (dsts ma) im' b' ->
  successful_call (converters setb) Tb w h im' dst b' db mb ->
  successful_call (converters setc) Tc w h src jm sb c mc -> reordered w h jm (dsts mc) jm' c' ->
  successful_call (converters setd) Td w h jm' dst' c' db' md ->
  is_rgb (i_pf src) = false -> is_rgb (i_pf im) = true -> is_rgb (i_pf jm) = true -> is_rgb (i_pf dst) = false ->
  i_pf dst' = i_pf dst -> i_cs dst' = i_cs dst -> setb = setd \/ setb <> Neon /\ setd <> Neon ->
  (forall x y, 0 <= x < w -> 0 <= y < h -> saturates seta (i_cs src) (pixel src w h sb x y) /\
                                           saturates setc (i_cs src) (pixel src w h sb x y)) ->
  forall x y, 0 <= x < w -> 0 <= y < h -> pixel dst w h (dsts mb) x y = pixel dst' w h (dsts md) x y.
Proof.
  intros Ha Ga Hb Hc Gc Hd Rs R1 R2 Rd Ep Ec Es HF. eapply (encoded_alike setb setd); eauto.
  - eapply reordered_kind; eauto.
  - eapply reordered_kind; eauto.
  - intros x y Hx Hy. destruct (HF x y Hx Hy) as [F1 F2].
    rewrite (reordered_pixels _ _ _ _ _ _ Gc R2 x y Hx Hy). eapply (c54_decoded seta setc); eauto.
Qed.
