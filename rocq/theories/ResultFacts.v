(** Consequences of [converted]. *)
From Coq Require Import ZArith List Bool Lia ZifyBool ZifyNat.
Import ListNotations.
From Verif Require Import Fmt Spec ApiSpec.
Open Scope Z_scope.
Ltac Zify.zify_post_hook ::= Z.div_mod_to_equations.

(** What plane [p] of an image is. *)
Lemma map_length_eq (a b : list (list Z)) : map (@length Z) a = map (@length Z) b ->
  length a = length b /\ forall n, length (nth n a []) = length (nth n b []).
Proof.
  intros H. split.
  - rewrite <- (map_length (@length Z) a), H, map_length. reflexivity.
  - intros n. change 0%nat with (length (@nil Z)).
    rewrite <- !(map_nth (@length Z)), H. reflexivity.
Qed.

(** Equal lengths and equal bytes. *)
Lemma bufs_ext (a b : list (list Z)) :
  map (@length Z) a = map (@length Z) b ->
  (forall n i, 0 <= i < buf_len a n -> nth (Z.to_nat i) (nth n a []) 0 = nth (Z.to_nat i) (nth n b []) 0) ->
  a = b.
Proof.
  intros Hl Hb. destruct (map_length_eq a b Hl) as [L1 L2].
  apply nth_ext with (d := []) (d' := []); auto. intros n Hn.
  apply nth_ext with (d := 0) (d' := 0); auto. intros i Hi.
  specialize (Hb n (Z.of_nat i)). rewrite Nat2Z.id in Hb. apply Hb. unfold buf_len. lia.
Qed.

(** Whether a position belongs to an image is decidable. *)
Lemma in_plane_dec g n a :
  {exists y j, n = g_buf g /\ 0 <= y < g_rows g /\ 0 <= j < g_row g /\ a = g_base g + y * g_stride g + j} +
  {~ exists y j, n = g_buf g /\ 0 <= y < g_rows g /\ 0 <= j < g_row g /\ a = g_base g + y * g_stride g + j}.
Proof.
  set (ok := existsb (fun y => (0 <=? a - g_base g - Z.of_nat y * g_stride g) &&
                               (a - g_base g - Z.of_nat y * g_stride g <? g_row g))
                     (seq 0 (Z.to_nat (g_rows g)))).
  destruct (Nat.eq_dec n (g_buf g)) as [E|E].
  2:{ right. intros (y & j & H & _). auto. }
  destruct ok eqn:Eok.
  - left. subst ok. apply existsb_exists in Eok. destruct Eok as (y & Hy & H).
    apply in_seq in Hy. exists (Z.of_nat y), (a - g_base g - Z.of_nat y * g_stride g). lia.
  - right. intros (y & j & _ & Hy & Hj & Ea). subst ok.
    assert (existsb (fun y => (0 <=? a - g_base g - Z.of_nat y * g_stride g) &&
                               (a - g_base g - Z.of_nat y * g_stride g <? g_row g))
                     (seq 0 (Z.to_nat (g_rows g))) = true); [|congruence].
    apply existsb_exists. exists (Z.to_nat y). split; [apply in_seq; lia|].
    rewrite Z2Nat.id by lia. lia.
Qed.

Lemma in_image_dec im w h n a : {in_image im w h n a} + {~ in_image im w h n a}.
Proof.
  destruct (Exists_dec (fun g => exists y j, n = g_buf g /\ 0 <= y < g_rows g /\ 0 <= j < g_row g /\
                                  a = g_base g + y * g_stride g + j) (image_planes im w h)
              (fun g => in_plane_dec g n a)) as [E|E].
  - left. apply Exists_exists in E. destruct E as (g & Hg & y & j & H). exists g, y, j. auto.
  - right. intros (g & y & j & Hg & H). apply E. apply Exists_exists. exists g. split; auto.
    exists y, j. exact H.
Qed.

Lemma buf_len_map a b n : map (@length Z) a = map (@length Z) b -> buf_len a n = buf_len b n.
Proof. intros H. unfold buf_len. rewrite (proj2 (map_length_eq a b H) n). reflexivity. Qed.

Lemma sample_at bufs g y j a : a = g_base g + y * g_stride g + j ->
  nth (Z.to_nat a) (nth (g_buf g) bufs []) 0 = sample bufs g y j.
Proof. intros ->. reflexivity. Qed.

(** The result is determined by the expected samples. *)
Lemma converted_same A A' src src' dst w h s1 s2 before a1 a2 :
  converted A src dst w h s1 before a1 -> converted A' src' dst w h s2 before a2 ->
  (forall p g y j, nth_error (image_planes dst w h) p = Some g -> 0 <= y < g_rows g -> 0 <= j < g_row g ->
     expected A src dst w h s1 p y j = expected A' src' dst w h s2 p y j) ->
  a1 = a2.
Proof.
  intros (L1 & S1 & F1) (L2 & S2 & F2) HE. apply bufs_ext; [congruence|].
  intros n i Hi. rewrite (buf_len_map _ _ n L1) in Hi.
  destruct (in_image_dec dst w h n i) as [(g & y & j & Hg & -> & Hy & Hj & Ea)|Hno].
  - rewrite !(sample_at _ g y j i Ea). apply In_nth_error in Hg. destruct Hg as [p Hp].
    rewrite (S1 p g Hp y j Hy Hj), (S2 p g Hp y j Hy Hj). apply (HE p g); auto.
  - rewrite F1, F2; auto.
Qed.

(** Samples only depend on the pixels they cover. *)
Lemma source_rgb_pixel A src src' w h s s' x y : i_pf src = i_pf src' -> i_cs src = i_cs src' ->
  pixel src w h s x y = pixel src' w h s' x y ->
  source_rgb A src w h s x y = source_rgb A src' w h s' x y.
Proof.
  intros Ep Ec H. unfold source_rgb, pixel in *. rewrite <- Ep in *. rewrite <- Ec.
  destruct (is_rgb (i_pf src)); [exact H|]. rewrite H. reflexivity.
Qed.

Ltac plane_case E p :=
  destruct p as [|[|[|p]]]; cbn [nth_error] in E;
  try (destruct p; discriminate E); try discriminate E; try (match type of E with Some ?a = Some ?b => assert (b = a) by congruence; subst b; clear E end).

Lemma expected_local A src src' dst dst' w h s s' p g y j :
  i_pf dst = i_pf dst' -> i_cs dst = i_cs dst' -> valid_size (i_pf dst) w h ->
  nth_error (image_planes dst w h) p = Some g -> 0 <= y < g_rows g -> 0 <= j < g_row g ->
  (forall px py, 0 <= px < w -> 0 <= py < h -> covers (i_pf dst) p y j px py ->
     source_rgb A src w h s px py = source_rgb A src' w h s' px py) ->
  expected A src dst w h s p y j = expected A src' dst' w h s' p y j.
Proof.
  intros Ep Ec Hv E Hy Hj HS. unfold expected. rewrite <- Ep, <- Ec.
  unfold image_planes, planes in E. unfold block_sum.
  destruct (i_pf dst); cbn [valid_size bytes_per_pixel] in *;
    try destruct (i_planes dst =? 1); plane_case E p; cbn [g_rows g_row covers bytes_per_pixel] in *;
    rewrite ?HS by lia; try reflexivity.
Qed.

(** Layout and content of padding do not matter. *)
Lemma converted_samples A src src' dst dst' w h s s' b b' a a' :
  i_pf src = i_pf src' -> i_cs src = i_cs src' -> i_pf dst = i_pf dst' -> i_cs dst = i_cs dst' ->
  valid_size (i_pf dst) w h ->
  converted A src dst w h s b a -> converted A src' dst' w h s' b' a' ->
  forall p g g' y j, nth_error (image_planes dst w h) p = Some g ->
  nth_error (image_planes dst' w h) p = Some g' -> 0 <= y < g_rows g -> 0 <= j < g_row g ->
  (forall px py, 0 <= px < w -> 0 <= py < h -> covers (i_pf dst) p y j px py ->
     pixel src w h s px py = pixel src' w h s' px py) ->
  sample a g y j = sample a' g' y j.
Proof.
  intros E1 E2 E3 E4 Hv (_ & S1 & _) (_ & S2 & _) p g g' y j Hg Hg' Hy Hj HP.
  assert (Hd : g_rows g' = g_rows g /\ g_row g' = g_row g).
  { unfold image_planes, planes in Hg, Hg'. rewrite <- E3 in Hg'.
    destruct (i_pf dst); try destruct (i_planes dst =? 1); try destruct (i_planes dst' =? 1);
      plane_case Hg p; cbn [nth_error] in Hg';
      match type of Hg' with Some ?a = Some ?b => assert (b = a) by congruence; subst b end;
      split; reflexivity. }
  destruct Hd as [D1 D2].
  rewrite (S1 p g Hg y j Hy Hj), (S2 p g' Hg' y j) by lia.
  apply expected_local with (g := g); auto.
  intros px py Hx Hy' Hc. apply source_rgb_pixel; auto.
Qed.

(** ** Readable consequences, by kind of conversion *)
Section Readable.
Variable A : columns.
Variables src dst : image.
Variables w h : Z.
Variables source before after : list (list Z).
Hypothesis HC : converted A src dst w h source before after.

Let px := pixel src w h source.

Lemma result_sample p g y j : nth_error (image_planes dst w h) p = Some g ->
  0 <= y < g_rows g -> 0 <= j < g_row g ->
  sample after g y j = expected A src dst w h source p y j.
Proof. destruct HC as (_ & H & _). intros. apply H; auto. Qed.

Lemma rgb_source x y : is_rgb (i_pf src) = true -> source_rgb A src w h source x y = px x y.
Proof. intros R. unfold source_rgb, px, pixel. rewrite R. reflexivity. Qed.

Lemma result_luma x y : is_rgb (i_pf src) = true -> is_rgb (i_pf dst) = false ->
  0 <= x < w -> 0 <= y < h ->
  sample after (plane_of dst w h 0) y x = ar_luma (A x) (i_cs dst) (px x y).
Proof.
  intros Rs Rd Hx Hy.
  assert (exists g, nth_error (image_planes dst w h) 0 = Some g /\ g_rows g = h /\ g_row g = w /\ plane_of dst w h 0 = g)
    as (g & E & R & C & ->).
  { unfold plane_of, nth_plane, image_planes, planes. destruct (i_pf dst); try discriminate;
      try destruct (i_planes dst =? 1); eexists; repeat split. }
  rewrite (result_sample 0 g y x E) by lia.
  rewrite <- rgb_source by auto. unfold expected. destruct (i_pf dst); try discriminate; reflexivity.
Qed.

Lemma result_chroma_444 x y : is_rgb (i_pf src) = true -> i_pf dst = I444 -> 0 <= x < w -> 0 <= y < h ->
  sample after (plane_of dst w h 1) y x = ar_cb (A x) (i_cs dst) 1 (px x y) /\
  sample after (plane_of dst w h 2) y x = ar_cr (A x) (i_cs dst) 1 (px x y).
Proof.
  intros Rs Ed Hx Hy. unfold plane_of, nth_plane, image_planes, planes. rewrite Ed. cbn [nth].
  split; [rewrite result_sample with (p := 1%nat) | rewrite result_sample with (p := 2%nat)];
    cbn [g_rows g_row]; try lia;
    try (unfold expected; rewrite Ed, rgb_source by auto; reflexivity);
    unfold image_planes, planes; rewrite Ed; reflexivity.
Qed.

Lemma block_source x y : is_rgb (i_pf src) = true ->
  block_sum (source_rgb A src w h source) x y = block_sum px x y.
Proof. intros R. unfold block_sum. rewrite !rgb_source by auto. reflexivity. Qed.

Lemma result_chroma_420 x y : is_rgb (i_pf src) = true -> i_pf dst = I420 ->
  0 <= x < w / 2 -> 0 <= y < h / 2 ->
  sample after (plane_of dst w h 1) y x = ar_cb (A (2 * x)) (i_cs dst) 4 (block_sum px x y) /\
  sample after (plane_of dst w h 2) y x = ar_cr (A (2 * x)) (i_cs dst) 4 (block_sum px x y).
Proof.
  intros Rs Ed Hx Hy. unfold plane_of, nth_plane, image_planes, planes. rewrite Ed. cbn [nth].
  split; [rewrite result_sample with (p := 1%nat) | rewrite result_sample with (p := 2%nat)];
    cbn [g_rows g_row]; try lia;
    try (unfold expected; rewrite Ed, block_source by auto; reflexivity);
    unfold image_planes, planes; rewrite Ed; reflexivity.
Qed.

Lemma result_chroma_nv12 x y : is_rgb (i_pf src) = true -> i_pf dst = Nv12 -> w mod 2 = 0 ->
  0 <= x < w / 2 -> 0 <= y < h / 2 ->
  sample after (plane_of dst w h 1) y (2 * x) = ar_cb (A (2 * x)) (i_cs dst) 4 (block_sum px x y) /\
  sample after (plane_of dst w h 1) y (2 * x + 1) = ar_cr (A (2 * x)) (i_cs dst) 4 (block_sum px x y).
Proof.
  intros Rs Ed We Hx Hy.
  assert (exists g, nth_error (image_planes dst w h) 1 = Some g /\ g_rows g = h / 2 /\ g_row g = w /\ plane_of dst w h 1 = g)
    as (g & E & R & C & ->).
  { unfold plane_of, nth_plane, image_planes, planes. rewrite Ed.
      destruct (i_planes dst =? 1); eexists; repeat split. }
  split; rewrite (result_sample 1 g _ _ E) by lia; unfold expected; rewrite Ed.
  - replace (2 * x mod 2 =? 0) with true by lia. replace (2 * x / 2) with x by lia.
    rewrite block_source by auto. reflexivity.
  - replace ((2 * x + 1) mod 2 =? 0) with false by lia. replace ((2 * x + 1) / 2) with x by lia.
    rewrite block_source by auto. reflexivity.
Qed.

(** Bytes of the pixels of a packed destination. *)
Lemma result_packed x y k : is_rgb (i_pf dst) = true ->
  0 <= x < w -> 0 <= y < h -> 0 <= k < bytes_per_pixel (i_pf dst) ->
  sample after (plane_of dst w h 0) y (bytes_per_pixel (i_pf dst) * x + k) =
  pixel_byte (i_pf dst) (source_rgb A src w h source x y) k.
Proof.
  intros Rd Hx Hy Hk. set (d := bytes_per_pixel (i_pf dst)) in *.
  assert (D : 3 <= d <= 4) by (unfold d; destruct (i_pf dst); try discriminate; cbn; lia).
  assert (E : nth_error (image_planes dst w h) 0 = Some (Geom 0 0 (eff_stride (i_strides dst) 0 (d * w)) h (d * w))).
  { unfold image_planes, planes, d. destruct (i_pf dst); try discriminate; reflexivity. }
  replace (plane_of dst w h 0) with (Geom 0 0 (eff_stride (i_strides dst) 0 (d * w)) h (d * w)).
  2:{ unfold plane_of, nth_plane. symmetry. apply nth_error_nth. exact E. }
  rewrite (result_sample 0 _ _ _ E); cbn [g_rows g_row]; [|lia|nia].
  assert (Q : (d * x + k) / d = x) by (rewrite Z.mul_comm, Z.div_add_l, Z.div_small; lia).
  assert (R : (d * x + k) mod d = k) by (rewrite Z.add_comm, Z.mul_comm, Z.mod_add, Z.mod_small; lia).
  unfold expected. fold d. rewrite Q, R. destruct (i_pf dst); try discriminate; reflexivity.
Qed.

Lemma result_pixel x y : is_rgb (i_pf dst) = true -> 0 <= x < w -> 0 <= y < h ->
  pixel dst w h after x y = source_rgb A src w h source x y.
Proof.
  intros Rd Hx Hy. unfold pixel, rgb_pixel. rewrite Rd. fold (plane_of dst w h 0).
  pose proof (fun k => result_packed x y k Rd Hx Hy) as P.
  destruct (source_rgb A src w h source x y) as [[r g] b].
  destruct (i_pf dst) eqn:Ed; try discriminate; cbn [component_offsets bytes_per_pixel] in *;
    rewrite !P by lia; reflexivity.
Qed.

Lemma result_alpha x y : (i_pf dst = Bgra \/ i_pf dst = Rgba) -> 0 <= x < w -> 0 <= y < h ->
  sample after (plane_of dst w h 0) y (4 * x + 3) = 255.
Proof.
  intros Ed Hx Hy.
  assert (P : sample after (plane_of dst w h 0) y (bytes_per_pixel (i_pf dst) * x + 3) =
              pixel_byte (i_pf dst) (source_rgb A src w h source x y) 3).
  { apply result_packed; auto; destruct Ed as [-> | ->]; cbn; auto; lia. }
  destruct (source_rgb A src w h source x y) as [[r g] b].
  destruct Ed as [E|E]; rewrite E in P; exact P.
Qed.
End Readable.
