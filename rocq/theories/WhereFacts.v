(** Facts behind the theorems that say exactly where instruction sets differ. *)
From Coq Require Import ZArith List Bool Lia ZifyBool.
Import ListNotations.
From Verif Require Import Base Fmt ResultFacts Wrappers CpuInfo Lib Sets Spec SimdSpec SetSpec ApiSpec Api PixelFacts PropFacts
  Itu PixelSpec ItuFacts PixelProps PixelApi MoveSpec MoveFacts WhereSpec.
Open Scope Z_scope.
Ltac Zify.zify_post_hook ::= Z.div_mod_to_equations.

(** ** The bytes of an image and its pixels *)

Lemma packed_sample pf gs bufs bufs' x y k : is_rgb pf = true -> 0 <= k < bytes_per_pixel pf ->
  rgb_pixel pf gs bufs x y = rgb_pixel pf gs bufs' x y ->
  (pf = Bgra \/ pf = Rgba -> sample bufs (nth_plane gs 0) y (4 * x + 3) = sample bufs' (nth_plane gs 0) y (4 * x + 3)) ->
  pf <> Argb ->
  sample bufs (nth_plane gs 0) y (bytes_per_pixel pf * x + k) = sample bufs' (nth_plane gs 0) y (bytes_per_pixel pf * x + k).
Proof.
  intros R Hk HP HA NA. unfold rgb_pixel in HP.
  destruct pf; try discriminate; try congruence; cbn [component_offsets bytes_per_pixel] in *;
    apply pair_equal_spec in HP; destruct HP as [HP H3]; apply pair_equal_spec in HP; destruct HP as [H1 H2];
    first [assert (k = 0 \/ k = 1 \/ k = 2) as [-> | [-> | ->]] by lia
          | assert (k = 0 \/ k = 1 \/ k = 2 \/ k = 3) as [-> | [-> | [-> | ->]]] by lia]; auto.
Qed.

Lemma samples_by_pixel dst w h bufs bufs' : valid_size (i_pf dst) w h -> i_pf dst <> I422 -> i_pf dst <> Argb ->
  (forall x y, 0 <= x < w -> 0 <= y < h -> pixel dst w h bufs x y = pixel dst w h bufs' x y) ->
  (i_pf dst = Bgra \/ i_pf dst = Rgba -> forall x y, 0 <= x < w -> 0 <= y < h ->
     sample bufs (plane_of dst w h 0) y (4 * x + 3) = sample bufs' (plane_of dst w h 0) y (4 * x + 3)) ->
  forall p g y j, nth_error (image_planes dst w h) p = Some g -> 0 <= y < g_rows g -> 0 <= j < g_row g ->
  sample bufs g y j = sample bufs' g y j.
Proof.
  intros VS N2 NA HP HA p g y j Hg Hy Hj.
  assert (G : g = plane_of dst w h p) by (unfold plane_of, nth_plane; symmetry; apply nth_error_nth; exact Hg).
  destruct (is_rgb (i_pf dst)) eqn:R.
  - assert (Q : p = 0%nat /\ g_rows g = h /\ g_row g = bytes_per_pixel (i_pf dst) * w).
    { pose proof Hg as Hg'. unfold image_planes, planes in Hg'.
      destruct (i_pf dst); try discriminate; destruct p as [|[|p]]; try discriminate; try (destruct p; discriminate); injection Hg' as <-; auto. }
    destruct Q as (-> & Eh & Er). rewrite Eh in Hy. rewrite Er in Hj.
    assert (D : 0 < bytes_per_pixel (i_pf dst)) by (destruct (i_pf dst); try discriminate; cbn; lia).
    set (d := bytes_per_pixel (i_pf dst)) in *.
    pose proof (Z.div_mod j d ltac:(lia)) as E. pose proof (Z.mod_pos_bound j d D) as M.
    assert (X : 0 <= j / d < w) by (split; [apply Z.div_pos; lia|apply Z.div_lt_upper_bound; lia]).
    rewrite G, E. specialize (HP (j / d) y X Hy). unfold pixel in HP. rewrite R in HP.
    apply packed_sample; auto.
  - rewrite G. clear HA.
    assert (Q : match i_pf dst, p with
                | I420, S _ => g_rows g = h / 2 /\ g_row g = w / 2
                | Nv12, S _ => g_rows g = h / 2 /\ g_row g = w
                | _, _ => g_rows g = h /\ g_row g = w end /\ (p <= 2)%nat /\ (i_pf dst = Nv12 -> (p <= 1)%nat)).
    { clear - Hg R N2. unfold image_planes, planes in Hg. cbv zeta in Hg.
      destruct (i_pf dst); try discriminate; try congruence;
        try (destruct (i_planes dst =? 1));
        destruct p as [|[|[|p]]]; try discriminate; try (destruct p; discriminate); injection Hg as <-; cbn [g_rows g_row];
        (split; [split; reflexivity|split; [lia|intros; try discriminate; lia]]). }
    destruct Q as (Q & Hp & Hp').
    assert (F : forall x y, 0 <= x < w -> 0 <= y < h ->
       let s i := sample bufs (plane_of dst w h i) in let s' i := sample bufs' (plane_of dst w h i) in
       s 0%nat y x = s' 0%nat y x /\
       match i_pf dst with
       | I444 => s 1%nat y x = s' 1%nat y x /\ s 2%nat y x = s' 2%nat y x
       | I420 => s 1%nat (y / 2) (x / 2) = s' 1%nat (y / 2) (x / 2) /\ s 2%nat (y / 2) (x / 2) = s' 2%nat (y / 2) (x / 2)
       | Nv12 => s 1%nat (y / 2) (2 * (x / 2)) = s' 1%nat (y / 2) (2 * (x / 2)) /\
                 s 1%nat (y / 2) (2 * (x / 2) + 1) = s' 1%nat (y / 2) (2 * (x / 2) + 1)
       | _ => True
       end).
    { intros x0 y0 Hx0 Hy0. specialize (HP x0 y0 Hx0 Hy0). unfold pixel, ycc_pixel in HP. rewrite R in HP.
      change (nth_plane (image_planes dst w h)) with (plane_of dst w h) in HP. cbv zeta.
      destruct (i_pf dst); try discriminate; try congruence;
        apply pair_equal_spec in HP; destruct HP as [HP H3]; apply pair_equal_spec in HP; destruct HP as [H1 H2]; auto. }
    cbv zeta in F. unfold valid_size in VS.
    destruct (i_pf dst); try discriminate; try congruence; destruct p as [|[|[|p]]]; try lia;
      destruct Q as [Q1 Q2]; rewrite Q1 in Hy; rewrite Q2 in Hj;
      try (apply F; auto; fail).
    + destruct (F (2 * j) (2 * y) ltac:(lia) ltac:(lia)) as (_ & F1 & _).
      replace (2 * j / 2) with j in F1 by lia. replace (2 * y / 2) with y in F1 by lia. exact F1.
    + destruct (F (2 * j) (2 * y) ltac:(lia) ltac:(lia)) as (_ & _ & F1).
      replace (2 * j / 2) with j in F1 by lia. replace (2 * y / 2) with y in F1 by lia. exact F1.
    + destruct (F j (2 * y) ltac:(lia) ltac:(lia)) as (_ & F1 & F2).
      replace (2 * y / 2) with y in F1, F2 by lia.
      destruct (Z.eq_dec (j mod 2) 0) as [E|E].
      * replace (2 * (j / 2)) with j in F1 by lia. exact F1.
      * replace (2 * (j / 2) + 1) with j in F2 by lia. exact F2.
Qed.

Lemma same_by_pixel set set' T T' w h src dst sb db m1 m2 :
  successful_call (converters set) T w h src dst sb db m1 ->
  successful_call (converters set') T' w h src dst sb db m2 ->
  (forall x y, 0 <= x < w -> 0 <= y < h -> pixel dst w h (dsts m1) x y = pixel dst w h (dsts m2) x y) -> m1 = m2.
Proof.
  intros H1 H2 HP. destruct (success_conv _ _ _ _ _ _ _ _ _ H1) as [S1 C1].
  destruct (success_conv _ _ _ _ _ _ _ _ _ H2) as [S2 C2].
  destruct (success_valid _ _ _ _ _ _ _ _ _ H1) as (_ & (_ & _ & Zd) & Hs).
  assert (E : dsts m1 = dsts m2).
  { eapply converted_same; eauto. intros p g y j Hg Hy Hj.
    destruct C1 as (_ & C1 & _), C2 as (_ & C2 & _).
    rewrite <- (C1 p g Hg y j Hy Hj), <- (C2 p g Hg y j Hy Hj).
    apply (samples_by_pixel dst w h (dsts m1) (dsts m2)) with (p := p); auto.
    - intros E. rewrite E in Hs. destruct (i_pf src); discriminate.
    - intros E. rewrite E in Hs. destruct (i_pf src); discriminate.
    - intros A x0 y0 Hx0 Hy0.
      rewrite (c20_opaque _ _ _ _ _ _ _ _ _ H1 A x0 y0 Hx0 Hy0), (c20_opaque _ _ _ _ _ _ _ _ _ H2 A x0 y0 Hx0 Hy0). reflexivity. }
  destruct m1 as [a b], m2 as [c d]. cbn [srcs dsts] in *. congruence.
Qed.

(** ** YCbCr to RGB *)

Lemma wraps cs l cb cr : 0 <= l <= 255 -> 0 <= cb <= 255 -> 0 <= cr <= 255 -> ~ blue_fits cs (l, cb, cr) ->
  exists r g, ycc_to_rgb cs l cb cr = (r, g, 255) /\ ycc_to_rgb_wrap cs l cb cr = (r, g, 0).
Proof.
  intros Hl Hb Hr. unfold blue_fits, ycc_to_rgb_wrap, ycc_to_rgb, rgb64.
  destruct cs; cbn [rgb_coefs snd]; intros H;
    match goal with |- context [(clamp255 (wrap16 ?r / 64), clamp255 (wrap16 ?g / 64), clamp255 (wrap16 ?b / 64))] =>
      exists (clamp255 (r / 64)), (clamp255 (g / 64));
      rewrite (wrap16_id r), (wrap16_id g) by lia;
      let b' := fresh "b" in
      assert (32768 <= b <= 40000) by lia; set (b' := b) in *; clearbody b';
      assert (wrap16 b' < 0) by (unfold wrap16; lia);
      split; (apply pair_equal_spec; split; [reflexivity|unfold clamp255; lia])
    end.
Qed.

Lemma wraps_columns set spf dpf w x : is_rgb spf = false -> 0 <= x ->
  (blue_wraps set spf dpf w x <-> x < vector_part set spf dpf w).
Proof.
  intros R X. unfold blue_wraps. split; [tauto|]. intros V. split; [|exact V].
  destruct set; auto; unfold vector_part in V; rewrite ?R in V; cbv beta iota zeta in V; lia.
Qed.

Lemma c15_exactly set T w h src dst sb db m' : successful_call (converters set) T w h src dst sb db m' ->
  is_rgb (i_pf src) = false -> is_rgb (i_pf dst) = true ->
  forall x y, 0 <= x < w -> 0 <= y < h ->
  let '(l, cb, cr) := pixel src w h sb x y in
  let '(r, g, b) := ycc_to_rgb (i_cs src) l cb cr in
  let over := blue_wraps set (i_pf src) (i_pf dst) w x /\ ~ blue_fits (i_cs src) (pixel src w h sb x y) in
  (over -> b = 255 /\ pixel dst w h (dsts m') x y = (r, g, 0)) /\
  (~ over -> pixel dst w h (dsts m') x y = (r, g, b)).
Proof.
  intros HS Rs Rd x y Hx Hy. pose proof (c15 _ _ _ _ _ _ _ _ _ HS Rs Rd x y Hx Hy) as E.
  pose proof (success_bytes _ _ _ _ _ _ _ _ _ x y HS) as HB. destruct (pixel src w h sb x y) as [[l cb] cr].
  destruct (ycc_to_rgb (i_cs src) l cb cr) as [[r g] b] eqn:EF. cbv zeta.
  destruct HB as (Bl & Bb & Br). rewrite E. rewrite (wraps_columns set _ (i_pf dst) w x Rs ltac:(lia)). split.
  - intros [V NF]. destruct (Z.ltb_spec x (vector_part set (i_pf src) (i_pf dst) w)); [|lia].
    destruct (wraps _ _ _ _ Bl Bb Br NF) as (r' & g' & W1 & W2). rewrite EF in W1.
    apply pair_equal_spec in W1; destruct W1 as [W1 ->]. split; [reflexivity|]. rewrite W2, W1. reflexivity.
  - intros NO. destruct (Z.ltb_spec x (vector_part set (i_pf src) (i_pf dst) w)) as [V|V]; [|reflexivity].
    assert (D : blue_fits (i_cs src) (l, cb, cr)).
    { assert (D : blue_fits (i_cs src) (l, cb, cr) \/ ~ blue_fits (i_cs src) (l, cb, cr)); [unfold blue_fits; lia|tauto]. }
    rewrite no_wrap by auto. exact EF.
Qed.

Lemma fits_dec cs p : blue_fits cs p \/ ~ blue_fits cs p.
Proof. destruct p as [[l cb] cr]. unfold blue_fits. lia. Qed.

Lemma wraps_dec set spf dpf w x : blue_wraps set spf dpf w x \/ ~ blue_wraps set spf dpf w x.
Proof. unfold blue_wraps. destruct (Z.lt_ge_cases x (vector_part set spf dpf w)); destruct set; intuition (try discriminate; try lia). Qed.

(** Two results from the same samples. *)
Lemma decoded_alike set set' T T' w h w' h' src src' dst dst' sb sb' db db' m m' :
  successful_call (converters set) T w h src dst sb db m ->
  successful_call (converters set') T' w' h' src' dst' sb' db' m' ->
  is_rgb (i_pf src) = false -> is_rgb (i_pf src') = false -> is_rgb (i_pf dst) = true -> is_rgb (i_pf dst') = true ->
  i_cs src = i_cs src' ->
  forall x y x' y', 0 <= x < w -> 0 <= y < h -> 0 <= x' < w' -> 0 <= y' < h' ->
  pixel src' w' h' sb' x' y' = pixel src w h sb x y ->
  (pixel dst' w' h' (dsts m') x' y' = pixel dst w h (dsts m) x y <->
   (~ blue_fits (i_cs src) (pixel src w h sb x y) ->
    (blue_wraps set (i_pf src) (i_pf dst) w x <-> blue_wraps set' (i_pf src') (i_pf dst') w' x'))).
Proof.
  intros H H' Rs Rs' Rd Rd' Ec x y x' y' Hx Hy Hx' Hy' EP.
  pose proof (c15_exactly _ _ _ _ _ _ _ _ _ H Rs Rd x y Hx Hy) as E1.
  pose proof (c15_exactly _ _ _ _ _ _ _ _ _ H' Rs' Rd' x' y' Hx' Hy') as E2.
  rewrite EP, <- Ec in E2. pose proof (fits_dec (i_cs src) (pixel src w h sb x y)) as D.
  pose proof (wraps_dec set (i_pf src) (i_pf dst) w x) as W. pose proof (wraps_dec set' (i_pf src') (i_pf dst') w' x') as W'.
  destruct (pixel src w h sb x y) as [[l cb] cr]. destruct (ycc_to_rgb (i_cs src) l cb cr) as [[r g] b]. cbv zeta in *.
  set (P := pixel dst w h (dsts m) x y) in *. set (P' := pixel dst' w' h' (dsts m') x' y') in *. clearbody P P'.
  set (F := blue_fits (i_cs src) (l, cb, cr)) in *. set (B := blue_wraps set (i_pf src) (i_pf dst) w x) in *.
  set (B' := blue_wraps set' (i_pf src') (i_pf dst') w' x') in *. clearbody F B B'.
  clear - E1 E2 D W W'. destruct E1 as [E1 F1], E2 as [E2 F2].
  assert (Q : forall b0, (r, g, b0) = (r, g, 0) -> b0 = 255 -> False) by (intros b0 Q; apply pair_equal_spec in Q; lia).
  destruct D as [D|D]; [rewrite F1, F2 by tauto; tauto|].
  destruct W as [W|W], W' as [W'|W'].
  - rewrite (proj2 (E1 (conj W D))), (proj2 (E2 (conj W' D))). tauto.
  - destruct (E1 (conj W D)) as [B0 ->]. rewrite (F2 ltac:(tauto)). split; [intros K; exfalso; exact (Q b K B0)|tauto].
  - destruct (E2 (conj W' D)) as [B0 ->]. rewrite (F1 ltac:(tauto)). split; [intros K; exfalso; exact (Q b (eq_sym K) B0)|tauto].
  - rewrite F1, F2 by tauto. tauto.
Qed.

Lemma c26_exactly set set' T T' w h src dst sb db m1 m2 :
  successful_call (converters set) T w h src dst sb db m1 ->
  successful_call (converters set') T' w h src dst sb db m2 ->
  is_rgb (i_pf src) = false ->
  (m1 = m2 <-> forall x y, 0 <= x < w -> 0 <= y < h -> ~ blue_fits (i_cs src) (pixel src w h sb x y) ->
     (blue_wraps set (i_pf src) (i_pf dst) w x <-> blue_wraps set' (i_pf src) (i_pf dst) w x)).
Proof.
  intros H1 H2 Rs.
  assert (Rd : is_rgb (i_pf dst) = true).
  { destruct (success_valid _ _ _ _ _ _ _ _ _ H1) as (_ & _ & S). destruct (i_pf src), (i_pf dst); try discriminate; reflexivity. }
  pose proof (decoded_alike _ _ _ _ _ _ _ _ _ _ _ _ _ _ _ _ _ _ H2 H1 Rs Rs Rd Rd eq_refl) as A.
  split.
  - intros <- x y Hx Hy NF. symmetry. exact (proj1 (A x y x y Hx Hy Hx Hy eq_refl) eq_refl NF).
  - intros HF. apply (same_by_pixel _ _ _ _ _ _ _ _ _ _ _ _ H1 H2). intros x y Hx Hy.
    apply (proj2 (A x y x y Hx Hy Hx Hy eq_refl)). intros NF. symmetry. apply (HF x y Hx Hy NF).
Qed.

(** ** RGB to YCbCr *)

Lemma tie_rounds n d : 0 < d -> (2 * n) mod (2 * d) = d -> round_up n d = round_down n d + 1.
Proof.
  intros Hd E. destruct (round_tie n d Hd) as [H|[H _]]; [exfalso|exact H].
  unfold round_down, round_up in H. pose proof (Z.div_mod (2 * n) (2 * d) ltac:(lia)) as D. rewrite E in D.
  set (q := 2 * n / (2 * d)) in *. clearbody q.
  assert (A : (2 * n + d) / (2 * d) = q + 1) by (symmetry; apply Z.div_unique with (r := 0); lia).
  assert (B : (2 * - n + d) / (2 * d) = - q) by (symmetry; apply Z.div_unique with (r := 0); lia).
  rewrite A, B in H. lia.
Qed.

Lemma tie_up k n p : n = 1 \/ n = 4 ->
  (tie k n p -> chroma true k n p = chroma false k n p + 1) /\ (~ tie k n p -> chroma true k n p = chroma false k n p).
Proof.
  intros Hn. unfold chroma, tie. split; intros H.
  - rewrite (tie_rounds _ (n * 65536) ltac:(lia) H). lia.
  - destruct (round_tie (dot k p) (n * 65536) ltac:(lia)) as [-> | [_ A]]; [reflexivity|congruence].
Qed.

Lemma halves_dec set w x : halves_up set w x \/ ~ halves_up set w x.
Proof. unfold halves_up. destruct (Z.lt_ge_cases x (8 * (w / 8))); destruct set; intuition (try discriminate; try lia). Qed.
Lemma up_halves set w x : (halves_up set w x -> up_at set w x = true) /\ (~ halves_up set w x -> up_at set w x = false).
Proof.
  unfold halves_up, up_at. split; [intros [-> H]; apply Z.ltb_lt; exact H|].
  intros H. destruct set; try reflexivity. apply Z.ltb_ge. destruct (Z.lt_ge_cases x (8 * (w / 8))); [tauto|assumption].
Qed.
Lemma tie_dec k n p : tie k n p \/ ~ tie k n p.
Proof. unfold tie. generalize (dot k p). intros d. destruct (Z.eq_dec ((2 * d) mod (2 * (n * 65536))) (n * 65536)); tauto. Qed.
Lemma area_number pf px x y : fst (chroma_area pf px x y) = 1 \/ fst (chroma_area pf px x y) = 4.
Proof. unfold chroma_area. destruct pf; auto. Qed.

(** A chroma sample, against the one rounded downwards. *)
Lemma c14_exactly set T w h src dst sb db m' : successful_call (converters set) T w h src dst sb db m' ->
  is_rgb (i_pf src) = true -> is_rgb (i_pf dst) = false ->
  forall x y, 0 <= x < w -> 0 <= y < h ->
  let '(l, cb, cr) := pixel dst w h (dsts m') x y in
  let '(n, p) := chroma_area (i_pf dst) (pixel src w h sb) x y in
  let up k := halves_up set w x /\ tie (k (i_cs dst)) n p in
  l = luma (i_cs dst) (pixel src w h sb x y) /\
  (up cb_weights -> cb = blue_diff (i_cs dst) n p + 1) /\ (~ up cb_weights -> cb = blue_diff (i_cs dst) n p) /\
  (up cr_weights -> cr = red_diff (i_cs dst) n p + 1) /\ (~ up cr_weights -> cr = red_diff (i_cs dst) n p).
Proof.
  intros H Rs Rd x y Hx Hy. rewrite (result_ycc _ _ _ _ _ _ _ _ _ H Rs Rd x y Hx Hy). cbv zeta.
  pose proof (area_number (i_pf dst) (pixel src w h sb) x y) as HN.
  destruct (chroma_area (i_pf dst) (pixel src w h sb) x y) as [n p]. cbn [fst] in HN.
  destruct (tie_up (cb_weights (i_cs dst)) n p HN) as [B1 B2]. destruct (tie_up (cr_weights (i_cs dst)) n p HN) as [R1 R2].
  change (blue_diff (i_cs dst) n p) with (chroma false (cb_weights (i_cs dst)) n p).
  change (red_diff (i_cs dst) n p) with (chroma false (cr_weights (i_cs dst)) n p).
  destruct (up_halves set w x) as [U1 U2].
  split; [reflexivity|]. destruct (halves_dec set w x) as [V|V]; [rewrite (U1 V)|rewrite (U2 V)]; repeat split; intros K; tauto.
Qed.

(** Two results from the same colours. *)
Lemma encoded_alike set set' T T' w h w' h' src src' dst dst' sb sb' db db' m m' :
  successful_call (converters set) T w h src dst sb db m ->
  successful_call (converters set') T' w' h' src' dst' sb' db' m' ->
  is_rgb (i_pf src) = true -> is_rgb (i_pf src') = true -> is_rgb (i_pf dst) = false -> is_rgb (i_pf dst') = false ->
  i_cs dst = i_cs dst' ->
  forall x y x' y', 0 <= x < w -> 0 <= y < h -> 0 <= x' < w' -> 0 <= y' < h' ->
  pixel src' w' h' sb' x' y' = pixel src w h sb x y ->
  chroma_area (i_pf dst') (pixel src' w' h' sb') x' y' = chroma_area (i_pf dst) (pixel src w h sb) x y ->
  let '(n, p) := chroma_area (i_pf dst) (pixel src w h sb) x y in
  (pixel dst' w' h' (dsts m') x' y' = pixel dst w h (dsts m) x y <->
   (tie (cb_weights (i_cs dst)) n p \/ tie (cr_weights (i_cs dst)) n p -> (halves_up set w x <-> halves_up set' w' x'))).
Proof.
  intros H H' Rs Rs' Rd Rd' Ec x y x' y' Hx Hy Hx' Hy' EP EA.
  pose proof (c14_exactly _ _ _ _ _ _ _ _ _ H Rs Rd x y Hx Hy) as E1.
  pose proof (c14_exactly _ _ _ _ _ _ _ _ _ H' Rs' Rd' x' y' Hx' Hy') as E2.
  rewrite EP, EA, <- Ec in E2. destruct (pixel dst w h (dsts m) x y) as [[l cb] cr], (pixel dst' w' h' (dsts m') x' y') as [[l' cb'] cr'].
  destruct (chroma_area (i_pf dst) (pixel src w h sb) x y) as [n p]. cbv zeta in *.
  pose proof (halves_dec set w x) as W. pose proof (halves_dec set' w' x') as W'.
  pose proof (tie_dec (cb_weights (i_cs dst)) n p) as TB. pose proof (tie_dec (cr_weights (i_cs dst)) n p) as TR.
  destruct E1 as (-> & B1 & B2 & R1 & R2), E2 as (-> & B1' & B2' & R1' & R2').
  set (B := halves_up set w x) in *. set (B' := halves_up set' w' x') in *. clearbody B B'.
  set (tb := tie (cb_weights (i_cs dst)) n p) in *. set (tr := tie (cr_weights (i_cs dst)) n p) in *. clearbody tb tr.
  set (b := blue_diff (i_cs dst) n p) in *. set (r := red_diff (i_cs dst) n p) in *. clearbody b r.
  set (L := luma _ _). clearbody L. clear - B1 B2 R1 R2 B1' B2' R1' R2' W W' TB TR.
  rewrite !pair_equal_spec. split.
  - intros [[_ <-] <-] [K|K]; split; intros U.
    + destruct W' as [W'|W']; [exact W'|]. rewrite (B2' ltac:(tauto)) in B1. specialize (B1 (conj U K)). lia.
    + destruct W as [W|W]; [exact W|]. rewrite (B1' (conj U K)) in B2. specialize (B2 ltac:(tauto)). lia.
    + destruct W' as [W'|W']; [exact W'|]. rewrite (R2' ltac:(tauto)) in R1. specialize (R1 (conj U K)). lia.
    + destruct W as [W|W]; [exact W|]. rewrite (R1' (conj U K)) in R2. specialize (R2 ltac:(tauto)). lia.
  - intros K. split; [split; [reflexivity|]|].
    + destruct TB as [TB|TB]; [|rewrite B2, B2' by tauto; reflexivity]. specialize (K (or_introl TB)).
      destruct W as [W|W]; [rewrite B1, B1' by tauto|rewrite B2, B2' by tauto]; reflexivity.
    + destruct TR as [TR|TR]; [|rewrite R2, R2' by tauto; reflexivity]. specialize (K (or_intror TR)).
      destruct W as [W|W]; [rewrite R1, R1' by tauto|rewrite R2, R2' by tauto]; reflexivity.
Qed.

Lemma c25_exactly set set' T T' w h src dst sb db m1 m2 :
  successful_call (converters set) T w h src dst sb db m1 ->
  successful_call (converters set') T' w h src dst sb db m2 ->
  is_rgb (i_pf src) = true -> is_rgb (i_pf dst) = false ->
  (m1 = m2 <-> forall x y, 0 <= x < w -> 0 <= y < h ->
     let '(n, p) := chroma_area (i_pf dst) (pixel src w h sb) x y in
     tie (cb_weights (i_cs dst)) n p \/ tie (cr_weights (i_cs dst)) n p -> (halves_up set w x <-> halves_up set' w x)).
Proof.
  intros H1 H2 Rs Rd.
  pose proof (encoded_alike _ _ _ _ _ _ _ _ _ _ _ _ _ _ _ _ _ _ H1 H2 Rs Rs Rd Rd eq_refl) as A. split.
  - intros <- x y Hx Hy. specialize (A x y x y Hx Hy Hx Hy eq_refl eq_refl).
    destruct (chroma_area _ _ x y) as [n p]. apply A. reflexivity.
  - intros HF. apply (same_by_pixel _ _ _ _ _ _ _ _ _ _ _ _ H1 H2). intros x y Hx Hy.
    specialize (A x y x y Hx Hy Hx Hy eq_refl eq_refl). specialize (HF x y Hx Hy).
    destruct (chroma_area _ _ x y) as [n p]. symmetry. apply A. exact HF.
Qed.

(** ** Moved pictures *)

Lemma moved_exactly set set' T T' w h w' h' f src src' dst dst' sb sb' db db' m m' :
  successful_call (converters set) T w h src dst sb db m ->
  successful_call (converters set') T' w' h' src' dst' sb' db' m' ->
  i_pf src = i_pf src' -> i_cs src = i_cs src' -> i_pf dst = i_pf dst' -> i_cs dst = i_cs dst' ->
  comes_from f w h w' h' ->
  (i_pf dst = I420 \/ i_pf dst = Nv12 -> blockwise f w' h') ->
  (forall x y, 0 <= x < w' -> 0 <= y < h' -> pixel src' w' h' sb' x y = pixel src w h sb (fst (f x y)) (snd (f x y))) ->
  forall x y, 0 <= x < w' -> 0 <= y < h' ->
  let '(n, p) := chroma_area (i_pf dst') (pixel src' w' h' sb') x y in
  (pixel dst' w' h' (dsts m') x y = pixel dst w h (dsts m) (fst (f x y)) (snd (f x y)) <->
   (is_rgb (i_pf src) = true -> is_rgb (i_pf dst) = false ->
    tie (cb_weights (i_cs dst)) n p \/ tie (cr_weights (i_cs dst)) n p ->
    (halves_up set w (fst (f x y)) <-> halves_up set' w' x)) /\
   (is_rgb (i_pf src) = false -> ~ blue_fits (i_cs src) (pixel src' w' h' sb' x y) ->
    (blue_wraps set (i_pf src) (i_pf dst) w (fst (f x y)) <-> blue_wraps set' (i_pf src) (i_pf dst) w' x))).
Proof.
  intros H H' E1 E2 E3 E4 FR HB HP x y Hx Hy.
  destruct (success_valid _ _ _ _ _ _ _ _ _ H) as (_ & _ & Sup).
  destruct (success_valid _ _ _ _ _ _ _ _ _ H') as (_ & (_ & _ & Zd) & _).
  destruct (FR x y Hx Hy) as [Fx Fy].
  destruct (is_rgb (i_pf src)) eqn:Rs.
  - assert (Rs' : is_rgb (i_pf src') = true) by congruence. destruct (is_rgb (i_pf dst)) eqn:Rd.
    + assert (Rd' : is_rgb (i_pf dst') = true) by congruence. destruct (chroma_area _ _ x y) as [n p].
      split; [intros _; split; intros; discriminate|intros _].
      rewrite (c21 _ _ _ _ _ _ _ _ _ H Rs Rd) by lia. rewrite (c21 _ _ _ _ _ _ _ _ _ H' Rs' Rd') by lia. apply HP; lia.
    + assert (Rd' : is_rgb (i_pf dst') = false) by congruence.
      assert (EA : chroma_area (i_pf dst') (pixel src' w' h' sb') x y = chroma_area (i_pf dst) (pixel src w h sb) (fst (f x y)) (snd (f x y))).
      { rewrite <- E3. apply (moved_area (i_pf dst) f (pixel src w h sb) (pixel src' w' h' sb') w' h' x y HP); auto.
        rewrite <- E3 in Zd. destruct (i_pf dst); try discriminate; try (left; reflexivity); cbn [valid_size] in Zd;
          try (right; intuition fail). destruct (i_pf src); discriminate. }
      pose proof (encoded_alike _ _ _ _ _ _ _ _ _ _ _ _ _ _ _ _ _ _ H H' Rs Rs' Rd Rd' E4 _ _ x y Fx Fy Hx Hy (HP x y Hx Hy) EA) as A.
      rewrite EA. destruct (chroma_area _ _ (fst (f x y)) _) as [n p]. rewrite A. split.
      * intros K. split; [intros _ _; exact K|discriminate].
      * intros [K _]. apply K; reflexivity.
  - assert (Rs' : is_rgb (i_pf src') = false) by congruence.
    assert (Rd : is_rgb (i_pf dst) = true) by (destruct (i_pf src), (i_pf dst); try discriminate; reflexivity).
    assert (Rd' : is_rgb (i_pf dst') = true) by congruence.
    destruct (chroma_area _ _ x y) as [n p].
    rewrite (decoded_alike _ _ _ _ _ _ _ _ _ _ _ _ _ _ _ _ _ _ H H' Rs Rs' Rd Rd' E2 _ _ x y Fx Fy Hx Hy (HP x y Hx Hy)).
    rewrite (HP x y Hx Hy), E1, E3. split.
    + intros K. split; [discriminate|intros _; exact K].
    + intros [_ K]. apply K; reflexivity.
Qed.

(** A rectangle. *)
Lemma cut_exactly set set' T T' w h w' h' x0 y0 src src' dst dst' sb sb' db db' m m' :
  successful_call (converters set) T w h src dst sb db m ->
  successful_call (converters set') T' w' h' src' dst' sb' db' m' ->
  i_pf src = i_pf src' -> i_cs src = i_cs src' -> i_pf dst = i_pf dst' -> i_cs dst = i_cs dst' ->
  0 <= x0 -> x0 + w' <= w -> 0 <= y0 -> y0 + h' <= h ->
  (i_pf dst = I420 \/ i_pf dst = Nv12 -> x0 mod 2 = 0 /\ y0 mod 2 = 0) ->
  (forall x y, 0 <= x < w' -> 0 <= y < h' -> pixel src' w' h' sb' x y = pixel src w h sb (x0 + x) (y0 + y)) ->
  forall x y, 0 <= x < w' -> 0 <= y < h' ->
  let '(n, p) := chroma_area (i_pf dst') (pixel src' w' h' sb') x y in
  (pixel dst' w' h' (dsts m') x y = pixel dst w h (dsts m) (x0 + x) (y0 + y) <->
   (is_rgb (i_pf src) = true -> is_rgb (i_pf dst) = false ->
    tie (cb_weights (i_cs dst)) n p \/ tie (cr_weights (i_cs dst)) n p ->
    (halves_up set w (x0 + x) <-> halves_up set' w' x)) /\
   (is_rgb (i_pf src) = false -> ~ blue_fits (i_cs src) (pixel src' w' h' sb' x y) ->
    (blue_wraps set (i_pf src) (i_pf dst) w (x0 + x) <-> blue_wraps set' (i_pf src) (i_pf dst) w' x))).
Proof.
  intros H H' E1 E2 E3 E4 X0 X1 Y0 Y1 HE HP x y Hx Hy.
  destruct (motions w h ltac:(lia) ltac:(lia)) as (_ & _ & _ & _ & _ & M).
  destruct (M x0 y0 w' h' X0 X1 Y0 Y1) as [CF BW].
  apply (moved_exactly _ _ _ _ _ _ _ _ (cut x0 y0) _ _ _ _ _ _ _ _ _ _ H H' E1 E2 E3 E4 CF); auto.
  intros K. destruct (HE K). apply BW; assumption.
Qed.
