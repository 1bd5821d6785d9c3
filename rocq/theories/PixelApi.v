(** Facts behind the theorems on pixel values, for every instruction set. *)
From Coq Require Import ZArith QArith List Bool Lia ZifyBool.
Import ListNotations.
From Verif Require Import Base Fmt Wrappers CpuInfo Lib Sets Spec SimdSpec SetSpec ApiSpec Api PixelFacts PropFacts
  Itu PixelSpec ItuFacts PixelProps.
Open Scope Z_scope.

(** For the examples. *)
Lemma buffers_check lim bufs :
  forallb (fun b => (Z.of_nat (length b) <=? lim) && forallb (fun x => (0 <=? x) && (x <=? 255)) b) bufs = true ->
  buffers_ok lim bufs.
Proof.
  unfold buffers_ok. rewrite forallb_forall, Forall_forall. intros H b Hb. specialize (H b Hb).
  apply andb_true_iff in H. destruct H as [H1 H2]. split; [lia|].
  rewrite forallb_forall in H2. rewrite Forall_forall. intros x Hx. specialize (H2 x Hx). lia.
Qed.

(** Whether exact halves are rounded upwards. *)
Definition up_at (set : instruction_set) (w x : Z) : bool :=
  match set with Neon => x <? 8 * (w / 8) | _ => false end.

Lemma cols_chroma_at set spf dpf w x cs n p : is_rgb spf = true -> is_rgb dpf = false ->
  ar_cb (set_cols set spf dpf w x) cs n p = chroma (up_at set w x) (cb_weights cs) n p /\
  ar_cr (set_cols set spf dpf w x) cs n p = chroma (up_at set w x) (cr_weights cs) n p.
Proof.
  intros Rs Rd. destruct set.
  1-3: match goal with |- context [set_cols ?s] => destruct (cols_chroma s spf dpf w x ltac:(discriminate)) as [-> ->] end;
       split; reflexivity.
  destruct (cols_neon spf dpf w x Rs Rd) as [-> ->]. unfold up_at. destruct (x <? 8 * (w / 8)); split; reflexivity.
Qed.

Lemma up_even set w x : up_at set w (2 * (x / 2)) = up_at set w x.
Proof.
  destruct set; try reflexivity. unfold up_at. set (v := w / 8). clearbody v.
  pose proof (Z.div_mod x 2 ltac:(lia)). pose proof (Z.mod_pos_bound x 2 ltac:(lia)).
  set (d := x / 2) in *. clearbody d. destruct (Z.ltb_spec (2 * d) (8 * v)), (Z.ltb_spec x (8 * v)); lia.
Qed.

Lemma half_range x n : n mod 2 = 0 -> 0 <= x < n -> 0 <= x / 2 < n / 2.
Proof.
  intros E H. pose proof (Z.div_mod n 2 ltac:(lia)). pose proof (Z.div_mod x 2 ltac:(lia)).
  pose proof (Z.mod_pos_bound x 2 ltac:(lia)). lia.
Qed.

Lemma result_ycc set T w h src dst sb db m' : successful_call (converters set) T w h src dst sb db m' ->
  is_rgb (i_pf src) = true -> is_rgb (i_pf dst) = false ->
  forall x y, 0 <= x < w -> 0 <= y < h ->
  pixel dst w h (dsts m') x y =
  let px := pixel src w h sb in
  let '(n, p) := chroma_area (i_pf dst) px x y in
  (luma (i_cs dst) (px x y), chroma (up_at set w x) (cb_weights (i_cs dst)) n p,
   chroma (up_at set w x) (cr_weights (i_cs dst)) n p).
Proof.
  intros HS Rs Rd x y Hx Hy. destruct (c14 set T w h src dst sb db m' HS Rs Rd) as (L & C1 & C2 & C3).
  destruct (success_valid _ _ _ _ _ _ _ _ _ HS) as (_ & (_ & _ & Zd) & Sup).
  assert (CB := fun x n p => proj1 (cols_chroma_at set _ _ w x (i_cs dst) n p Rs Rd)).
  assert (CR := fun x n p => proj2 (cols_chroma_at set _ _ w x (i_cs dst) n p Rs Rd)).
  cbv zeta in *. unfold pixel at 1. rewrite Rd. unfold ycc_pixel, chroma_area.
  change (nth_plane (image_planes dst w h)) with (plane_of dst w h). specialize (L x y Hx Hy).
  destruct (i_pf dst) eqn:Ed; try discriminate Rd.
  - rewrite L. destruct (C1 eq_refl x y Hx Hy) as [-> ->]. rewrite CB, CR. reflexivity.
  - destruct (i_pf src); discriminate.
  - destruct Zd as [Zw Zh]. rewrite L.
    destruct (C2 eq_refl _ _ (half_range x w Zw Hx) (half_range y h Zh Hy)) as [-> ->]. rewrite CB, CR, up_even. reflexivity.
  - destruct Zd as [Zw Zh]. rewrite L.
    destruct (C3 eq_refl _ _ (half_range x w Zw Hx) (half_range y h Zh Hy)) as [-> ->]. rewrite CB, CR, up_even. reflexivity.
Qed.

(** The sums of a chroma area. *)
Lemma area_bytes impl T w h src dst sb db m' pf x y : successful_call impl T w h src dst sb db m' ->
  let '(n, (r, g, b)) := chroma_area pf (pixel src w h sb) x y in
  (n = 1 \/ n = 4) /\ 0 <= r <= n * 255 /\ 0 <= g <= n * 255 /\ 0 <= b <= n * 255.
Proof.
  intros HS. assert (B := fun x y => success_bytes _ _ _ _ _ _ _ _ _ x y HS).
  assert (DI : chroma_area pf (pixel src w h sb) x y = (1, pixel src w h sb x y) \/
               chroma_area pf (pixel src w h sb) x y = (4, block_sum (pixel src w h sb) (x / 2) (y / 2))) by (destruct pf; auto).
  destruct DI as [-> | ->].
  - specialize (B x y). destruct (pixel src w h sb x y) as [[r g] b]. lia.
  - unfold block_sum.
    pose proof (B (2 * (x / 2)) (2 * (y / 2))) as B1. pose proof (B (2 * (x / 2) + 1) (2 * (y / 2))) as B2.
    pose proof (B (2 * (x / 2)) (2 * (y / 2) + 1)) as B3. pose proof (B (2 * (x / 2) + 1) (2 * (y / 2) + 1)) as B4.
    destruct (pixel src w h sb (2 * (x / 2)) (2 * (y / 2))) as [[r1 g1] b1].
    destruct (pixel src w h sb (2 * (x / 2) + 1) (2 * (y / 2))) as [[r2 g2] b2].
    destruct (pixel src w h sb (2 * (x / 2)) (2 * (y / 2) + 1)) as [[r3 g3] b3].
    destruct (pixel src w h sb (2 * (x / 2) + 1) (2 * (y / 2) + 1)) as [[r4 g4] b4].
    clear B. cbn [add_rgb]. lia.
Qed.

Lemma ycc_space impl T w h src dst sb db m' : successful_call impl T w h src dst sb db m' ->
  (is_rgb (i_pf src) = false -> i_cs src <> CsRgb) /\ (is_rgb (i_pf dst) = false -> i_cs dst <> CsRgb).
Proof.
  intros HS. destruct (success_valid _ _ _ _ _ _ _ _ _ HS) as ((V & _) & (V' & _) & _).
  unfold valid_colors in *. split; intros R E; [apply V in E|apply V' in E]; congruence.
Qed.

Lemma c16_forward set T w h src dst sb db m' : successful_call (converters set) T w h src dst sb db m' ->
  is_rgb (i_pf src) = true -> is_rgb (i_pf dst) = false ->
  forall x y, 0 <= x < w -> 0 <= y < h ->
  let px := pixel src w h sb in
  let area := q_average (fst (chroma_area (i_pf dst) px x y)) (snd (chroma_area (i_pf dst) px x y)) in
  all_near (51 # 100) (pixel dst w h (dsts m') x y)
    (exact_y (i_cs dst) (q_of (px x y)), exact_cb (i_cs dst) area, exact_cr (i_cs dst) area).
Proof.
  intros HS Rs Rd x y Hx Hy px area. rewrite (result_ycc _ _ _ _ _ _ _ _ _ HS Rs Rd x y Hx Hy).
  pose proof (success_bytes _ _ _ _ _ _ _ _ _ x y HS) as B.
  pose proof (area_bytes _ _ _ _ _ _ _ _ _ (i_pf dst) x y HS) as BA.
  destruct (ycc_space _ _ _ _ _ _ _ _ _ HS) as [_ N]. specialize (N Rd).
  unfold area. fold px in B, BA |- *. cbv zeta.
  destruct (chroma_area (i_pf dst) px x y) as [n [[r g] b]]. cbn [fst snd]. destruct (px x y) as [[r0 g0] b0].
  unfold all_near. split; [apply luma_near; unfold is_byte; tauto|].
  split; [apply cb_near|apply cr_near]; tauto.
Qed.

Lemma c16_inverse set T w h src dst sb db m' : successful_call (converters set) T w h src dst sb db m' ->
  is_rgb (i_pf src) = false -> is_rgb (i_pf dst) = true ->
  forall x y, 0 <= x < w -> 0 <= y < h -> saturates set (i_cs src) (pixel src w h sb x y) ->
  let '(l, cb, cr) := pixel src w h sb x y in
  all_near (rgb_error (i_cs src)) (pixel dst w h (dsts m') x y)
    (q_clamp_rgb (exact_rgb (i_cs src) (inject_Z l) (inject_Z cb) (inject_Z cr))).
Proof.
  intros HS Rs Rd x y Hx Hy HF. rewrite (c15_exact _ _ _ _ _ _ _ _ _ HS Rs Rd x y Hx Hy HF).
  pose proof (success_bytes _ _ _ _ _ _ _ _ _ x y HS) as B.
  destruct (ycc_space _ _ _ _ _ _ _ _ _ HS) as [N _]. specialize (N Rs).
  destruct (pixel src w h sb x y) as [[l cb] cr].
  pose proof (rgb_near (i_cs src) l cb cr N ltac:(unfold is_byte; tauto) ltac:(unfold is_byte; tauto) ltac:(unfold is_byte; tauto)) as H.
  destruct (ycc_to_rgb (i_cs src) l cb cr) as [[r g] b].
  destruct (exact_rgb _ _ _ _) as [[er eg] eb]. exact H.
Qed.

Lemma c17 set T w h src dst sb db m' : successful_call (converters set) T w h src dst sb db m' ->
  is_rgb (i_pf src) = true -> is_rgb (i_pf dst) = false ->
  forall x y, 0 <= x < w -> 0 <= y < h ->
  let '(l, cb, cr) := pixel dst w h (dsts m') x y in let cs := i_cs dst in
  y_min cs <= l <= y_max cs /\ c_min cs <= cb <= c_max cs /\ c_min cs <= cr <= c_max cs.
Proof.
  intros HS Rs Rd x y Hx Hy. rewrite (result_ycc _ _ _ _ _ _ _ _ _ HS Rs Rd x y Hx Hy). cbv zeta.
  pose proof (success_bytes _ _ _ _ _ _ _ _ _ x y HS) as B.
  pose proof (area_bytes _ _ _ _ _ _ _ _ _ (i_pf dst) x y HS) as BA.
  destruct (ycc_space _ _ _ _ _ _ _ _ _ HS) as [_ N]. specialize (N Rd).
  destruct (chroma_area _ _ _ _) as [n [[r g] b]]. destruct (pixel src w h sb x y) as [[r0 g0] b0].
  split; [apply luma_nominal; unfold is_byte; tauto|].
  split; [apply cb_nominal|apply cr_nominal]; tauto.
Qed.

Lemma formulas_in_range cs n r g b : cs <> CsRgb -> n = 1 \/ n = 4 ->
  0 <= r <= n * 255 -> 0 <= g <= n * 255 -> 0 <= b <= n * 255 ->
  (n = 1 -> y_min cs <= luma cs (r, g, b) <= y_max cs) /\
  c_min cs <= blue_diff cs n (r, g, b) <= c_max cs /\ c_min cs <= red_diff cs n (r, g, b) <= c_max cs /\
  c_min cs <= blue_diff_up cs n (r, g, b) <= c_max cs /\ c_min cs <= red_diff_up cs n (r, g, b) <= c_max cs.
Proof.
  intros N Hn Hr Hg Hb. split; [intros ->; apply luma_nominal; unfold is_byte; (assumption || lia)|].
  split; [exact (cb_nominal false cs n r g b N Hn Hr Hg Hb)|].
  split; [exact (cr_nominal false cs n r g b N Hn Hr Hg Hb)|].
  split; [exact (cb_nominal true cs n r g b N Hn Hr Hg Hb)|exact (cr_nominal true cs n r g b N Hn Hr Hg Hb)].
Qed.

Lemma clamp_saturated v : saturated v (clamp255 (v / 64)).
Proof.
  unfold saturated, clamp255. pose proof (Z.div_mod v 64 ltac:(lia)). pose proof (Z.mod_pos_bound v 64 ltac:(lia)). lia.
Qed.

Lemma c18 set T w h src dst sb db m' : successful_call (converters set) T w h src dst sb db m' ->
  is_rgb (i_pf src) = false -> is_rgb (i_pf dst) = true ->
  forall x y, 0 <= x < w -> 0 <= y < h -> saturates set (i_cs src) (pixel src w h sb x y) ->
  let '(l, cb, cr) := pixel src w h sb x y in
  let '(r, g, b) := rgb64 (i_cs src) l cb cr in
  let '(r', g', b') := pixel dst w h (dsts m') x y in
  saturated r r' /\ saturated g g' /\ saturated b b'.
Proof.
  intros HS Rs Rd x y Hx Hy HF. rewrite (c15_exact _ _ _ _ _ _ _ _ _ HS Rs Rd x y Hx Hy HF).
  destruct (pixel src w h sb x y) as [[l cb] cr]. unfold ycc_to_rgb.
  destruct (rgb64 (i_cs src) l cb cr) as [[r g] b]. repeat split; apply clamp_saturated.
Qed.

Lemma c19_grey set T w h src dst sb db m' : successful_call (converters set) T w h src dst sb db m' ->
  is_rgb (i_pf src) = true -> is_rgb (i_pf dst) = false ->
  forall x y, 0 <= x < w -> 0 <= y < h ->
  forall v, snd (chroma_area (i_pf dst) (pixel src w h sb) x y) = (v, v, v) ->
  exists l, pixel dst w h (dsts m') x y = (l, 128, 128).
Proof.
  intros HS Rs Rd x y Hx Hy v E. rewrite (result_ycc _ _ _ _ _ _ _ _ _ HS Rs Rd x y Hx Hy). cbv zeta.
  pose proof (area_bytes _ _ _ _ _ _ _ _ _ (i_pf dst) x y HS) as BA.
  destruct (chroma_area _ _ _ _) as [n p]. cbn [snd] in E. subst p.
  destruct (grey_chroma (up_at set w x) (i_cs dst) n v (proj1 BA)) as [-> ->]. eauto.
Qed.

Lemma fits_neutral cs l : 0 <= l <= 255 -> blue_fits cs (l, 128, 128).
Proof.
  intros Hl; unfold blue_fits, rgb64.
  pose proof (Z.div_le_mono (l * 19077) (255 * 19077) 256 ltac:(lia) ltac:(lia)) as H1.
  pose proof (Z.div_le_mono (l * 16384) (255 * 16384) 256 ltac:(lia) ltac:(lia)) as H2.
  change (255 * 19077 / 256) with 19002 in H1. change (255 * 16384 / 256) with 16320 in H2.
  destruct cs; cbn [rgb_coefs snd];
  repeat match goal with |- context [128 * ?k / 256] =>
    let c := eval vm_compute in (128 * k / 256) in change (128 * k / 256) with c end; try lia.
Qed.

Lemma c19_neutral set T w h src dst sb db m' : successful_call (converters set) T w h src dst sb db m' ->
  is_rgb (i_pf src) = false -> is_rgb (i_pf dst) = true ->
  forall x y, 0 <= x < w -> 0 <= y < h -> forall l, pixel src w h sb x y = (l, 128, 128) ->
  pixel dst w h (dsts m') x y = ycc_to_rgb (i_cs src) l 128 128.
Proof.
  intros HS Rs Rd x y Hx Hy l E. pose proof (success_bytes _ _ _ _ _ _ _ _ _ x y HS) as B.
  rewrite (c15_exact _ _ _ _ _ _ _ _ _ HS Rs Rd x y Hx Hy), E; [reflexivity|].
  rewrite E in *. right. right. apply fits_neutral. tauto.
Qed.

Lemma c19_neutral_grey set T w h src dst sb db m' : successful_call (converters set) T w h src dst sb db m' ->
  is_rgb (i_pf src) = false -> is_rgb (i_pf dst) = true -> limited (i_cs src) = true ->
  forall x y, 0 <= x < w -> 0 <= y < h -> forall l, pixel src w h sb x y = (l, 128, 128) ->
  exists v, pixel dst w h (dsts m') x y = (v, v, v).
Proof.
  intros HS Rs Rd Hl x y Hx Hy l E. pose proof (success_bytes _ _ _ _ _ _ _ _ _ x y HS) as B. rewrite E in B.
  rewrite (c19_neutral _ _ _ _ _ _ _ _ _ HS Rs Rd x y Hx Hy l E).
  pose proof (neutral_grey (i_cs src) l Hl ltac:(unfold is_byte; tauto)) as G.
  destruct (ycc_to_rgb _ _ _ _) as [[r g] b]. destruct G as [-> ->]. eauto.
Qed.

Lemma c19_neutral_close set T w h src dst sb db m' : successful_call (converters set) T w h src dst sb db m' ->
  is_rgb (i_pf src) = false -> is_rgb (i_pf dst) = true ->
  forall x y, 0 <= x < w -> 0 <= y < h -> forall l, pixel src w h sb x y = (l, 128, 128) ->
  let '(r, g, b) := pixel dst w h (dsts m') x y in
  Z.abs (r - g) <= 3 /\ Z.abs (g - b) <= 3 /\ Z.abs (r - b) <= 1.
Proof.
  intros HS Rs Rd x y Hx Hy l E. pose proof (success_bytes _ _ _ _ _ _ _ _ _ x y HS) as B. rewrite E in B.
  rewrite (c19_neutral _ _ _ _ _ _ _ _ _ HS Rs Rd x y Hx Hy l E).
  destruct (ycc_space _ _ _ _ _ _ _ _ _ HS) as [N _].
  exact (neutral_close (i_cs src) l (N Rs) ltac:(unfold is_byte; tauto)).
Qed.

Lemma luma_ends cs : cs <> CsRgb -> luma cs (0, 0, 0) = y_min cs /\ luma cs (255, 255, 255) = y_max cs.
Proof. destruct cs; intros; try congruence; split; reflexivity. Qed.

Lemma c19_extremes set T w h src dst sb db m' : successful_call (converters set) T w h src dst sb db m' ->
  is_rgb (i_pf src) = true -> is_rgb (i_pf dst) = false ->
  forall x y, 0 <= x < w -> 0 <= y < h ->
  let '(l, _, _) := pixel dst w h (dsts m') x y in
  (pixel src w h sb x y = (0, 0, 0) -> l = y_min (i_cs dst)) /\
  (pixel src w h sb x y = (255, 255, 255) -> l = y_max (i_cs dst)).
Proof.
  intros HS Rs Rd x y Hx Hy. rewrite (result_ycc _ _ _ _ _ _ _ _ _ HS Rs Rd x y Hx Hy). cbv zeta.
  destruct (ycc_space _ _ _ _ _ _ _ _ _ HS) as [_ N]. destruct (luma_ends _ (N Rd)) as [L0 L1].
  destruct (chroma_area _ _ _ _) as [n p]. split; intros ->; assumption.
Qed.

Lemma c19_back set T w h src dst sb db m' : successful_call (converters set) T w h src dst sb db m' ->
  is_rgb (i_pf src) = false -> is_rgb (i_pf dst) = true -> limited (i_cs src) = true ->
  forall x y, 0 <= x < w -> 0 <= y < h ->
  (pixel src w h sb x y = (y_min (i_cs src), 128, 128) -> pixel dst w h (dsts m') x y = (0, 0, 0)) /\
  (pixel src w h sb x y = (y_max (i_cs src), 128, 128) -> pixel dst w h (dsts m') x y = (255, 255, 255)).
Proof.
  intros HS Rs Rd Hl x y Hx Hy.
  split; intros E; rewrite (c19_neutral _ _ _ _ _ _ _ _ _ HS Rs Rd x y Hx Hy _ E);
    destruct (i_cs src); try discriminate; reflexivity.
Qed.

(** ** Round trip *)

Lemma block_uniform (px : Z -> Z -> rgb) x y r g b :
  (forall x' y', x' / 2 = x / 2 -> y' / 2 = y / 2 -> px x' y' = px x y) -> px x y = (r, g, b) ->
  block_sum px (x / 2) (y / 2) = (4 * r, 4 * g, 4 * b).
Proof.
  intros HU E. unfold block_sum.
  assert (D0 : forall n, 2 * n / 2 = n) by (intros; rewrite Z.mul_comm, Z.div_mul; lia).
  assert (D1 : forall n, (2 * n + 1) / 2 = n) by (intros; symmetry; apply Z.div_unique with (r := 1); lia).
  rewrite (HU (2 * (x / 2)) (2 * (y / 2))), (HU (2 * (x / 2) + 1) (2 * (y / 2))),
    (HU (2 * (x / 2)) (2 * (y / 2) + 1)), (HU (2 * (x / 2) + 1) (2 * (y / 2) + 1)), E by auto.
  cbn [add_rgb].
  replace (r + r + (r + r)) with (4 * r) by lia. replace (g + g + (g + g)) with (4 * g) by lia.
  replace (b + b + (b + b)) with (4 * b) by lia. reflexivity.
Qed.


Lemma c33_uniform set set' T T' w h src mid dst sb mb db m1 m2 :
  successful_call (converters set) T w h src mid sb mb m1 ->
  successful_call (converters set') T' w h mid dst (dsts m1) db m2 ->
  is_rgb (i_pf src) = true -> is_rgb (i_pf mid) = false -> is_rgb (i_pf dst) = true ->
  forall x y, 0 <= x < w -> 0 <= y < h ->
  i_pf mid = I444 \/
  (forall x' y', x' / 2 = x / 2 -> y' / 2 = y / 2 -> pixel src w h sb x' y' = pixel src w h sb x y) ->
  within (trip_error (i_cs mid)) (pixel dst w h (dsts m2) x y) (pixel src w h sb x y).
Proof.
  intros H1 H2 Rs Rm Rd x y Hx Hy HU.
  pose proof (result_ycc _ _ _ _ _ _ _ _ _ H1 Rs Rm x y Hx Hy) as E.
  pose proof (c17 _ _ _ _ _ _ _ _ _ H1 Rs Rm x y Hx Hy) as BM.
  pose proof (success_bytes _ _ _ _ _ _ _ _ _ x y H1) as B.
  destruct (ycc_space _ _ _ _ _ _ _ _ _ H1) as [_ N]. specialize (N Rm).
  assert (EU : forall k, chroma (up_at set w x) k (fst (chroma_area (i_pf mid) (pixel src w h sb) x y))
      (snd (chroma_area (i_pf mid) (pixel src w h sb) x y)) = chroma (up_at set w x) k 1 (pixel src w h sb x y)).
  { intros k. destruct HU as [EI|HU]; [rewrite EI; reflexivity|].
    destruct (success_valid _ _ _ _ _ _ _ _ _ H1) as (_ & _ & Sup).
    assert (KB : i_pf mid <> I444 -> chroma_area (i_pf mid) (pixel src w h sb) x y =
             (4, let '(r, g, b) := pixel src w h sb x y in (4 * r, 4 * g, 4 * b))).
    { intros NI. assert (EA : chroma_area (i_pf mid) (pixel src w h sb) x y = (4, block_sum (pixel src w h sb) (x / 2) (y / 2)))
        by (destruct (i_pf mid); try reflexivity; congruence).
      rewrite EA. f_equal. destruct (pixel src w h sb x y) as [[r g] b] eqn:EP.
      apply block_uniform; [rewrite EP; exact HU|exact EP]. }
    assert (DI : i_pf mid = I444 \/ i_pf mid <> I444) by (destruct (i_pf mid); auto; right; discriminate).
    destruct DI as [EI|NI]; [rewrite EI; reflexivity|].
    rewrite (KB NI). cbn [fst snd]. pose proof (uniform_block (up_at set w x) k (pixel src w h sb x y)) as U.
    destruct (pixel src w h sb x y) as [[r g] b]. exact U. }
  cbv zeta in E. destruct (chroma_area _ _ _ _) as [n p]. cbn [fst snd] in EU. rewrite !EU in E.
  rewrite E in BM.
  rewrite (c15_nominal _ _ _ _ _ _ _ _ _ H2 Rm Rd x y Hx Hy _ _ _ E).
  - pose proof (fun r g b => trip_close (up_at set w x) (up_at set w x) (i_cs mid) r g b N) as TC.
    destruct (pixel src w h sb x y) as [[r g] b].
    specialize (TC r g b ltac:(unfold is_byte; tauto) ltac:(unfold is_byte; tauto) ltac:(unfold is_byte; tauto)).
    unfold trip in TC. destruct (ycc_to_rgb _ _ _ _) as [[r' g'] b'].
    unfold within. destruct (trip_error (i_cs mid)) as [[er eg] eb]. exact TC.
  - unfold y_max, c_max in BM.
    destruct (i_cs mid); try congruence; cbn [limited] in BM; auto; do 4 right; lia.
Qed.

Lemma c33 set set' T T' w h src mid dst sb mb db m1 m2 :
  successful_call (converters set) T w h src mid sb mb m1 ->
  successful_call (converters set') T' w h mid dst (dsts m1) db m2 ->
  is_rgb (i_pf src) = true -> i_pf mid = I444 ->
  forall x y, 0 <= x < w -> 0 <= y < h ->
  within (trip_error (i_cs mid)) (pixel dst w h (dsts m2) x y) (pixel src w h sb x y).
Proof.
  intros H1 H2 Rs Em x y Hx Hy.
  destruct (success_valid _ _ _ _ _ _ _ _ _ H2) as (_ & _ & Sup).
  eapply c33_uniform; eauto; rewrite ?Em in *; try reflexivity. destruct (i_pf dst); try discriminate; reflexivity.
Qed.

(** ** Monotonicity *)

Lemma c34_luma set set' T T' w w' h h' src src' dst dst' sb sb' db db' m1 m2 :
  successful_call (converters set) T w h src dst sb db m1 ->
  successful_call (converters set') T' w' h' src' dst' sb' db' m2 ->
  is_rgb (i_pf src) = true -> is_rgb (i_pf dst) = false ->
  is_rgb (i_pf src') = true -> is_rgb (i_pf dst') = false -> i_cs dst = i_cs dst' ->
  forall x y x' y', 0 <= x < w -> 0 <= y < h -> 0 <= x' < w' -> 0 <= y' < h' ->
  below (pixel src w h sb x y) (pixel src' w' h' sb' x' y') ->
  fst (fst (pixel dst w h (dsts m1) x y)) <= fst (fst (pixel dst' w' h' (dsts m2) x' y')).
Proof.
  intros H1 H2 Rs Rd Rs' Rd' Ec x y x' y' Hx Hy Hx' Hy' HB.
  rewrite (result_ycc _ _ _ _ _ _ _ _ _ H1 Rs Rd x y Hx Hy), (result_ycc _ _ _ _ _ _ _ _ _ H2 Rs' Rd' x' y' Hx' Hy').
  cbv zeta. destruct (chroma_area (i_pf dst) _ _ _) as [n p]. destruct (chroma_area (i_pf dst') _ _ _) as [n' p'].
  cbn [fst]. destruct (pixel src w h sb x y) as [[r g] b], (pixel src' w' h' sb' x' y') as [[r' g'] b'].
  rewrite Ec. apply luma_mono; apply HB.
Qed.

Lemma c34_rgb set set' T T' w w' h h' src src' dst dst' sb sb' db db' m1 m2 :
  successful_call (converters set) T w h src dst sb db m1 ->
  successful_call (converters set') T' w' h' src' dst' sb' db' m2 ->
  is_rgb (i_pf src) = false -> is_rgb (i_pf dst) = true ->
  is_rgb (i_pf src') = false -> is_rgb (i_pf dst') = true -> i_cs src = i_cs src' ->
  forall x y x' y', 0 <= x < w -> 0 <= y < h -> 0 <= x' < w' -> 0 <= y' < h' ->
  forall l l' cb cr, pixel src w h sb x y = (l, cb, cr) -> pixel src' w' h' sb' x' y' = (l', cb, cr) -> l <= l' ->
  saturates set (i_cs src) (l, cb, cr) -> saturates set' (i_cs src') (l', cb, cr) ->
  below (pixel dst w h (dsts m1) x y) (pixel dst' w' h' (dsts m2) x' y').
Proof.
  intros H1 H2 Rs Rd Rs' Rd' Ec x y x' y' Hx Hy Hx' Hy' l l' cb cr E E' L F F'.
  rewrite (c15_exact _ _ _ _ _ _ _ _ _ H1 Rs Rd x y Hx Hy), (c15_exact _ _ _ _ _ _ _ _ _ H2 Rs' Rd' x' y' Hx' Hy');
    rewrite ?E, ?E'; auto.
  rewrite Ec. pose proof (rgb_mono (i_cs src') l l' cb cr L) as M. unfold below.
  destruct (ycc_to_rgb _ l _ _) as [[r g] b], (ycc_to_rgb _ l' _ _) as [[r' g'] b']. exact M.
Qed.

(** ** Subsampling *)

Lemma c35_uniform set T T' w h src sub full sb db db' m1 m2 :
  successful_call (converters set) T w h src sub sb db m1 ->
  successful_call (converters set) T' w h src full sb db' m2 ->
  is_rgb (i_pf src) = true -> is_rgb (i_pf sub) = false -> i_pf full = I444 -> i_cs sub = i_cs full ->
  forall x y, 0 <= x < w -> 0 <= y < h ->
  (forall x' y', x' / 2 = x / 2 -> y' / 2 = y / 2 -> pixel src w h sb x' y' = pixel src w h sb x y) ->
  pixel sub w h (dsts m1) x y = pixel full w h (dsts m2) x y.
Proof.
  intros H1 H2 Rs Rd Ef Ec x y Hx Hy HU.
  assert (Rf : is_rgb (i_pf full) = false) by (rewrite Ef; reflexivity).
  rewrite (result_ycc _ _ _ _ _ _ _ _ _ H1 Rs Rd x y Hx Hy), (result_ycc _ _ _ _ _ _ _ _ _ H2 Rs Rf x y Hx Hy).
  cbv zeta. rewrite Ef, Ec. cbn [chroma_area].
  assert (DI : i_pf sub = I444 \/ chroma_area (i_pf sub) (pixel src w h sb) x y = (4, block_sum (pixel src w h sb) (x / 2) (y / 2)))
    by (destruct (i_pf sub); auto).
  destruct DI as [-> | ->]; [reflexivity|].
  destruct (pixel src w h sb x y) as [[r g] b] eqn:EP.
  rewrite (block_uniform (pixel src w h sb) x y r g b) by (rewrite ?EP; auto).
  pose proof (fun k => uniform_block (up_at set w x) k (r, g, b)) as U. cbv beta iota in U. rewrite !U. reflexivity.
Qed.

Lemma c35_between set T T' w h src sub full sb db db' m1 m2 :
  successful_call (converters set) T w h src sub sb db m1 ->
  successful_call (converters set) T' w h src full sb db' m2 ->
  is_rgb (i_pf src) = true -> i_pf sub = I420 \/ i_pf sub = Nv12 -> i_pf full = I444 -> i_cs sub = i_cs full ->
  forall x y, 0 <= x < w -> 0 <= y < h ->
  forall lo hi,
  (forall x' y', x' / 2 = x / 2 -> y' / 2 = y / 2 ->
     let '(_, cb, cr) := pixel full w h (dsts m2) x' y' in
     fst lo <= cb <= fst hi /\ snd lo <= cr <= snd hi) ->
  let '(_, cb, cr) := pixel sub w h (dsts m1) x y in
  fst lo <= cb <= fst hi /\ snd lo <= cr <= snd hi.
Proof.
  intros H1 H2 Rs Es Ef Ec x y Hx Hy lo hi HU.
  assert (Rf : is_rgb (i_pf full) = false) by (rewrite Ef; reflexivity).
  assert (Rd : is_rgb (i_pf sub) = false) by (destruct Es as [-> | ->]; reflexivity).
  destruct (success_valid _ _ _ _ _ _ _ _ _ H1) as (_ & (_ & _ & Zd) & _).
  assert (Z2 : w mod 2 = 0 /\ h mod 2 = 0) by (destruct Es as [E|E]; rewrite E in Zd; exact Zd).
  destruct Z2 as [Zw Zh].
  rewrite (result_ycc _ _ _ _ _ _ _ _ _ H1 Rs Rd x y Hx Hy). cbv zeta.
  assert (EA : chroma_area (i_pf sub) (pixel src w h sb) x y = (4, block_sum (pixel src w h sb) (x / 2) (y / 2)))
    by (destruct Es as [-> | ->]; reflexivity).
  rewrite EA, Ec.
  pose proof (half_range x w Zw Hx) as HX. pose proof (half_range y h Zh Hy) as HY.
  pose proof (Z.div_mod w 2 ltac:(lia)) as W2. pose proof (Z.div_mod h 2 ltac:(lia)) as H2'. rewrite Zw in W2. rewrite Zh in H2'.
  assert (D0 : forall n, 2 * n / 2 = n) by (intros; rewrite Z.mul_comm, Z.div_mul; lia).
  assert (D1 : forall n, (2 * n + 1) / 2 = n) by (intros; symmetry; apply Z.div_unique with (r := 1); lia).
  assert (UP : forall x', x' / 2 = x / 2 -> up_at set w x' = up_at set w x)
    by (intros x' E; rewrite <- (up_even set w x'), <- (up_even set w x), E; reflexivity).
  assert (P : forall x' y', x' / 2 = x / 2 -> y' / 2 = y / 2 -> 0 <= x' < w -> 0 <= y' < h ->
    fst lo <= chroma (up_at set w x) (cb_weights (i_cs full)) 1 (pixel src w h sb x' y') <= fst hi /\
    snd lo <= chroma (up_at set w x) (cr_weights (i_cs full)) 1 (pixel src w h sb x' y') <= snd hi).
  { intros x' y' E1 E2 Hx' Hy'. specialize (HU x' y' E1 E2).
    rewrite (result_ycc _ _ _ _ _ _ _ _ _ H2 Rs Rf x' y' Hx' Hy') in HU. cbv zeta in HU. rewrite Ef in HU. cbn [chroma_area] in HU.
    rewrite (UP x' E1) in HU. exact HU. }
  pose proof (P (2 * (x / 2)) (2 * (y / 2)) (D0 _) (D0 _) ltac:(lia) ltac:(lia)) as P1.
  pose proof (P (2 * (x / 2) + 1) (2 * (y / 2)) (D1 _) (D0 _) ltac:(lia) ltac:(lia)) as P2.
  pose proof (P (2 * (x / 2)) (2 * (y / 2) + 1) (D0 _) (D1 _) ltac:(lia) ltac:(lia)) as P3.
  pose proof (P (2 * (x / 2) + 1) (2 * (y / 2) + 1) (D1 _) (D1 _) ltac:(lia) ltac:(lia)) as P4.
  unfold block_sum. split; apply block_between; tauto.
Qed.
