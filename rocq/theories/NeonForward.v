(** The RGB to YCbCr kernels of neon.rs. *)
From Coq Require Import ZArith List Bool Lia ZifyBool ZifyNat.
Import ListNotations.
From Verif Require Import Base Exec Area Fmt Common Scalar Wrappers Simd Vector Spec SimdSpec PixelFacts
  KernelBase ForwardProofs SimdFacts VecForward X86Forward Neon.
Open Scope Z_scope.
Ltac Zify.zify_post_hook ::= Z.div_mod_to_equations.

(** ** Lanes *)
Definition rgb8 (smp : sampler) (f : Z -> Z) : list rgb := map (gpx smp f) (zseq 0 8).

Lemma rgb8_ok smp f p : all_bytes f -> In p (rgb8 smp f) -> rgb_ok 255 p.
Proof. intros H Hp. unfold rgb8 in Hp. apply in_map_iff in Hp as (k & <- & _). apply gpx_ok; auto. Qed.

Lemma load8 smp f :
  load_rgb_8x smp (loaded (Z.to_nat (load_len smp)) f)
  = (map fst3 (rgb8 smp f), map snd3 (rgb8 smp f), map thd3 (rgb8 smp f)).
Proof. destruct smp; reflexivity. Qed.

Lemma madd3 a b c : (((a mod 4294967296) + b) mod 4294967296 + c) mod 4294967296 = (a + b + c) mod 4294967296.
Proof. rewrite Zplus_mod_idemp_l, <- Z.add_assoc, Zplus_mod_idemp_l, Z.add_assoc. auto. Qed.

Lemma halves_map {A} (F : list A -> list Z) (G : A -> Z) ps :
  (forall l, F l = map G l) -> F (firstn 4 ps) ++ F (skipn 4 ps) = map G ps.
Proof. intros H. rewrite !H, <- map_app, firstn_skipn. auto. Qed.

Lemma us_lanes {A} (r g b : A -> Z) ps w0 w1 w2 :
  rgb_to_us_8x (map r ps) (map g ps) (map b ps) w0 w1 w2
  = map (fun p => (((r p * w0 + g p * w1 + b p * w2) mod 4294967296 + 2 ^ (FIX16 - 1)) / 2 ^ FIX16) mod 65536) ps.
Proof.
  unfold rgb_to_us_8x, vcombine, vget_low, high. cbv zeta.
  rewrite !firstn_map, !skipn_map.
  match goal with |- _ = map ?G _ => rewrite <- (halves_map (map G) G ps) by auto end.
  unfold vrshrn_n_u32, vmlal_n_u16, vmull_n_u16.
  f_equal; rewrite !map_map, !map2_map, map_map; apply map_ext; intros p; rewrite madd3; auto.
Qed.

Lemma s_lanes {A} (r g b : A -> Z) ps w0 w1 w2 :
  rgb_to_s_8x (map r ps) (map g ps) (map b ps) w0 w1 w2
  = map (fun p => ((i32 (i16 (r p) * w0 + i16 (g p) * w1 + i16 (b p) * w2) + 2 ^ (FIX16 - 1)) / 2 ^ FIX16) mod 65536) ps.
Proof.
  unfold rgb_to_s_8x, vcombine, vget_low, high. cbv zeta.
  rewrite !firstn_map, !skipn_map.
  match goal with |- _ = map ?G _ => rewrite <- (halves_map (map G) G ps) by auto end.
  unfold vrshrn_n_s32, vmlal_n_s16, vmull_n_s16.
  f_equal; rewrite !map_map, !map2_map, map_map; apply map_ext; intros p; rewrite madd3, i32_mod; auto.
Qed.

(** ** Luma *)
Lemma sat_id x : 0 <= x <= 255 -> sat 0 255 x = x.
Proof. intros H. unfold sat. destruct (Z.ltb_spec x 0), (Z.ltb_spec 255 x); lia. Qed.

Lemma up_half d : (d + 32768) / 65536 = round_up d 65536.
Proof. unfold round_up. lia. Qed.

Lemma us_lane d a : 0 <= d < 4294967296 -> 0 <= a <= 255 -> 0 <= a + round_up d 65536 <= 255 ->
  sat 0 255 ((((d mod 4294967296 + 2 ^ (FIX16 - 1)) / 2 ^ FIX16) mod 65536 + a mod 65536) mod 65536)
  = a + round_up d 65536.
Proof.
  intros Hd Ha Hr. change (2 ^ (FIX16 - 1)) with 32768. change (2 ^ FIX16) with 65536.
  rewrite (Z.mod_small d), up_half by auto.
  assert (0 <= round_up d 65536) by (unfold round_up; apply Z.div_pos; lia).
  rewrite (Z.mod_small (round_up d 65536)), (Z.mod_small a) by lia.
  rewrite Z.mod_small, sat_id; lia.
Qed.

Lemma y_weights_neon c :
  y_weights c = (XR c, XG c, XB c, y_min (cs_of c)) /\
  Spec.y_weights (cs_of c) = (XR c, XG c, XB c) /\ 0 <= y_min (cs_of c) <= 255 /\
  (0 <= XR c <= 65536 /\ 0 <= XG c <= 65536 /\ 0 <= XB c <= 65536).
Proof. destruct c; repeat split; try (vm_compute; congruence); reflexivity. Qed.

Lemma neon_luma c p : rgb_ok 255 p ->
  let '(w0, w1, w2, w3) := y_weights c in
  sat 0 255 (((((fst3 p * w0 + snd3 p * w1 + thd3 p * w2) mod 4294967296 + 2 ^ (FIX16 - 1)) / 2 ^ FIX16) mod 65536
             + w3 mod 65536) mod 65536) = luma (cs_of c) p.
Proof.
  destruct p as [[r g] b]. intros (H1 & H2 & H3).
  pose proof (luma_range (cs_of c) r g b H1 H2 H3) as R. unfold is_byte in R.
  unfold fst3, snd3, thd3 in *.
  destruct (y_weights_neon c) as (-> & E & Ho & H4 & H5 & H6).
  unfold luma in *. rewrite E in *. unfold dot in *.
  replace (r * XR c + g * XG c + b * XB c) with (XR c * r + XG c * g + XB c * b) by ring.
  assert (0 <= XR c * r <= 65536 * 255) by nia.
  assert (0 <= XG c * g <= 65536 * 255) by nia.
  assert (0 <= XB c * b <= 65536 * 255) by nia.
  apply us_lane; lia.
Qed.

Lemma dup_map {A} a (ps : list A) : length ps = 8%nat ->
  vdupq_n_16 a = map (fun _ => a mod 65536) ps.
Proof.
  intros H. unfold vdupq_n_16. rewrite <- H. clear H.
  induction ps; cbn [length repeat map]; [auto|f_equal; auto].
Qed.

Definition fy (smp : sampler) (c : colorimetry) (l : list Z) : list Z :=
  let '(r, g, b) := load_rgb_8x smp l in rgb_to_y_8x c r g b.

Lemma fy_neon smp c : fy_ok 8 (Z.to_nat (load_len smp)) neon_arith smp (cs_of c) (fy smp c).
Proof.
  intros f H. unfold fy. rewrite load8. unfold rgb_to_y_8x.
  pose proof (neon_luma c) as L. destruct (y_weights c) as [[[w0 w1] w2] w3].
  rewrite us_lanes, (dup_map _ (rgb8 smp f)) by reflexivity.
  unfold vqmovn_u16, vaddq_16. rewrite map2_map, map_map.
  transitivity (map (luma (cs_of c)) (rgb8 smp f)); [|reflexivity].
  apply map_ext_in. intros p Hp. apply L. apply (rgb8_ok smp f); auto.
Qed.

(** ** Chroma *)

Lemma chroma_lane_up x : 0 <= 128 + x <= 255 ->
  sat 0 255 ((x mod 65536 + 128) mod 65536) = 128 + x.
Proof.
  intros H. replace ((x mod 65536 + 128) mod 65536) with (128 + x) by lia.
  unfold sat. destruct (Z.ltb_spec (128 + x) 0), (Z.ltb_spec 255 (128 + x)); lia.
Qed.

Lemma cb_weights_neon c : let '(w0, w1, _, w3, _) := uv_weights c in cb_weights (cs_of c) = (w0, w1, w3).
Proof. destruct c; reflexivity. Qed.
Lemma cr_weights_neon c : let '(_, _, w2, w3, w4) := uv_weights c in cr_weights (cs_of c) = (w3, w2, w4).
Proof. destruct c; reflexivity. Qed.

(** Weights of chroma: positive and negative parts are at most one half. *)
Definition chroma_w (w : Z * Z * Z) : Prop :=
  w = cb_weights Bt601 \/ w = cb_weights Bt709 \/ w = cb_weights Bt601FR \/ w = cb_weights Bt709FR \/
  w = cr_weights Bt601 \/ w = cr_weights Bt709 \/ w = cr_weights Bt601FR \/ w = cr_weights Bt709FR.

Lemma dot_bound w m p : chroma_w w -> 0 <= m -> rgb_ok m p -> - (32767 * m) <= dot w p <= 32767 * m.
Proof.
  destruct p as [[r g] b]. intros Hw Hm (H1 & H2 & H3). unfold fst3, snd3, thd3, dot in *.
  unfold chroma_w in Hw.
  decompose [or] Hw; subst w; cbn [cb_weights cr_weights]; lia.
Qed.

Lemma up_range d n : 0 < n -> - (32767 * (n * 255)) <= d <= 32767 * (n * 255) ->
  0 <= 128 + round_up d (n * 65536) <= 255.
Proof.
  intros Hn H. unfold round_up. split.
  - assert (-128 <= (2 * d + n * 65536) / (2 * (n * 65536))) by (apply Z.div_le_lower_bound; lia). lia.
  - assert ((2 * d + n * 65536) / (2 * (n * 65536)) < 128) by (apply Z.div_lt_upper_bound; lia). lia.
Qed.

Lemma up1 d : (d + 2 ^ (FIX16 - 1)) / 2 ^ FIX16 = round_up d (1 * 65536).
Proof. change (2 ^ (FIX16 - 1)) with 32768. change (2 ^ FIX16) with 65536. unfold round_up. lia. Qed.
Lemma up4 d : (d / 2 ^ (FIX18 - FIX16) + 2 ^ (FIX16 - 1)) / 2 ^ FIX16 = round_up d (4 * 65536).
Proof.
  change (2 ^ (FIX16 - 1)) with 32768. change (2 ^ FIX16) with 65536. change (2 ^ (FIX18 - FIX16)) with 4.
  unfold round_up. lia.
Qed.

Lemma i16_dot w m p : m <= 32767 -> rgb_ok m p -> let '(a, b, c) := w in
  i16 (fst3 p) * a + i16 (snd3 p) * b + i16 (thd3 p) * c = dot w p.
Proof.
  destruct w as [[a b] c]. destruct p as [[x y] z]. intros Hm (H1 & H2 & H3).
  unfold fst3, snd3, thd3, dot in *. rewrite !i16_small by lia. ring.
Qed.

Lemma bias_lanes {A} (F : A -> Z) ps : length ps = 8%nat ->
  chroma_8x (map F ps) = map (fun p => sat 0 255 ((F p + 128) mod 65536)) ps.
Proof.
  intros H. unfold chroma_8x. rewrite (dup_map _ ps) by auto.
  change (UV_BIAS mod 65536) with 128. unfold vqmovn_u16, vaddq_16. rewrite map2_map, map_map. auto.
Qed.

Lemma chroma_w_cb c : chroma_w (cb_weights (cs_of c)).
Proof. unfold chroma_w. destruct c; cbn [cs_of]; tauto. Qed.
Lemma chroma_w_cr c : chroma_w (cr_weights (cs_of c)).
Proof. unfold chroma_w. destruct c; cbn [cs_of]; tauto. Qed.

Lemma chroma1_lane w p : chroma_w w -> rgb_ok 255 p ->
  let '(a, b, c) := w in
  sat 0 255 ((((i32 (i16 (fst3 p) * a + i16 (snd3 p) * b + i16 (thd3 p) * c) + 2 ^ (FIX16 - 1)) / 2 ^ FIX16) mod 65536
             + 128) mod 65536) = 128 + round_up (dot w p) (1 * 65536).
Proof.
  intros Hw Hp. pose proof (i16_dot w 255 p ltac:(lia) Hp) as E. destruct w as [[a b] c]. rewrite E.
  pose proof (dot_bound _ 255 p Hw ltac:(lia) Hp) as B. set (d := dot (a, b, c) p) in *. clearbody d. clear E Hw.
  rewrite i32_small by lia. rewrite up1. apply chroma_lane_up. apply up_range; lia.
Qed.

Lemma chroma4_lane w p : chroma_w w -> rgb_ok 1020 p ->
  let '(a, b, c) := w in
  sat 0 255 ((((i32 ((i32 (i16 (fst3 p) * a + i16 (snd3 p) * b + i16 (thd3 p) * c) / 2 ^ (FIX18 - FIX16)) mod 4294967296)
               + 2 ^ (FIX16 - 1)) / 2 ^ FIX16) mod 65536
             + 128) mod 65536) = 128 + round_up (dot w p) (4 * 65536).
Proof.
  intros Hw Hp. pose proof (i16_dot w 1020 p ltac:(lia) Hp) as E. destruct w as [[a b] c]. rewrite E.
  pose proof (dot_bound _ 1020 p Hw ltac:(lia) Hp) as B. set (d := dot (a, b, c) p) in *. clearbody d. clear E Hw.
  rewrite (i32_small d) by lia. rewrite i32_mod, i32_small
    by (change (2 ^ (FIX18 - FIX16)) with 4; lia).
  rewrite up4. apply chroma_lane_up. apply up_range; lia.
Qed.

Definition raw1 (w : Z * Z * Z) (p : rgb) : Z :=
  let '(a, b, c) := w in
  ((i32 (i16 (fst3 p) * a + i16 (snd3 p) * b + i16 (thd3 p) * c) + 2 ^ (FIX16 - 1)) / 2 ^ FIX16) mod 65536.

Lemma raw1_val w p : chroma_w w -> rgb_ok 255 p ->
  sat 0 255 ((raw1 w p + 128) mod 65536) = 128 + round_up (dot w p) (1 * 65536).
Proof. intros Hw Hp. pose proof (chroma1_lane w p Hw Hp) as E. destruct w as [[a b] c]. exact E. Qed.

Definition fu4 (smp : sampler) (c : colorimetry) (l : list Z) : list Z :=
  let '(r, g, b) := load_rgb_8x smp l in
  let '(w0, w1, w2, w3, w4) := uv_weights c in chroma_8x (rgb_to_s_8x r g b w0 w1 w3).
Definition fv4 (smp : sampler) (c : colorimetry) (l : list Z) : list Z :=
  let '(r, g, b) := load_rgb_8x smp l in
  let '(w0, w1, w2, w3, w4) := uv_weights c in chroma_8x (rgb_to_s_8x r g b w3 w2 w4).

Lemma fu4_neon smp c : fu4_ok 8 (Z.to_nat (load_len smp)) neon_arith smp (cs_of c) (fu4 smp c).
Proof.
  intros f H. unfold fu4. rewrite load8.
  pose proof (cb_weights_neon c) as E. pose proof (chroma_w_cb c) as C.
  destruct (uv_weights c) as [[[[w0 w1] w2] w3] w4].
  rewrite s_lanes, bias_lanes by reflexivity.
  transitivity (map (blue_diff_up (cs_of c) 1) (rgb8 smp f)); [|reflexivity].
  apply map_ext_in. intros p Hp. unfold blue_diff_up.
  rewrite <- (raw1_val _ p C (rgb8_ok smp f p H Hp)). rewrite E. auto.
Qed.
Lemma fv4_neon smp c : fv4_ok 8 (Z.to_nat (load_len smp)) neon_arith smp (cs_of c) (fv4 smp c).
Proof.
  intros f H. unfold fv4. rewrite load8.
  pose proof (cr_weights_neon c) as E. pose proof (chroma_w_cr c) as C.
  destruct (uv_weights c) as [[[[w0 w1] w2] w3] w4].
  rewrite s_lanes, bias_lanes by reflexivity.
  transitivity (map (red_diff_up (cs_of c) 1) (rgb8 smp f)); [|reflexivity].
  apply map_ext_in. intros p Hp. unfold red_diff_up.
  rewrite <- (raw1_val _ p C (rgb8_ok smp f p H Hp)). rewrite E. auto.
Qed.

(** *** Blocks of two rows *)
Definition sums (smp : sampler) (f g : Z -> Z) : list rgb := map (gsum smp f g) (zseq 0 4).

Lemma gsum_ok smp f g k : all_bytes f -> all_bytes g -> rgb_ok 1020 (gsum smp f g k).
Proof.
  intros Hf Hg. unfold gsum.
  pose proof (gpx_ok smp f (2 * k) Hf) as A. pose proof (gpx_ok smp f (2 * k + 1) Hf) as B.
  pose proof (gpx_ok smp g (2 * k) Hg) as C. pose proof (gpx_ok smp g (2 * k + 1) Hg) as D.
  destruct (gpx smp f (2 * k)) as [[? ?] ?], (gpx smp f (2 * k + 1)) as [[? ?] ?],
    (gpx smp g (2 * k)) as [[? ?] ?], (gpx smp g (2 * k + 1)) as [[? ?] ?].
  cbn [rgb_ok add_rgb] in *. lia.
Qed.

Lemma sums_ok smp f g p : all_bytes f -> all_bytes g -> In p (sums smp f g) -> rgb_ok 1020 p.
Proof. intros Hf Hg Hp. unfold sums in Hp. apply in_map_iff in Hp as (k & <- & _). apply gsum_ok; auto. Qed.

Lemma high_avg smp (F : rgb -> Z) f g :
  (forall p q, F (add_rgb p q) = F p + F q) -> (forall p, rgb_ok 255 p -> 0 <= F p <= 255) ->
  all_bytes f -> all_bytes g ->
  high (avg_8x (map F (rgb8 smp f)) (map F (rgb8 smp g))) = map F (sums smp f g).
Proof.
  intros HF HR Hf Hg.
  transitivity (map (fun k => ((F (gpx smp f (2 * k)) + F (gpx smp g (2 * k))) mod 65536
                        + (F (gpx smp f (2 * k + 1)) + F (gpx smp g (2 * k + 1))) mod 65536) mod 65536) (zseq 0 4));
    [reflexivity|].
  unfold sums. rewrite map_map. apply map_ext. intros k. unfold gsum. rewrite !HF.
  pose proof (HR _ (gpx_ok smp f (2 * k) Hf)). pose proof (HR _ (gpx_ok smp f (2 * k + 1) Hf)).
  pose proof (HR _ (gpx_ok smp g (2 * k) Hg)). pose proof (HR _ (gpx_ok smp g (2 * k + 1) Hg)).
  rewrite !(Z.mod_small (_ + _) 65536); lia.
Qed.

(** The two registers of [rgb_to_uv_8x] before the bias. *)
Definition raw4 (w : Z * Z * Z) (p : rgb) : Z :=
  let '(a, b, c) := w in
  ((i32 ((i32 (i16 (fst3 p) * a + i16 (snd3 p) * b + i16 (thd3 p) * c) / 2 ^ (FIX18 - FIX16)) mod 4294967296)
               + 2 ^ (FIX16 - 1)) / 2 ^ FIX16) mod 65536.

Lemma raw4_val w p : chroma_w w -> rgb_ok 1020 p ->
  sat 0 255 ((raw4 w p + 128) mod 65536) = 128 + round_up (dot w p) (4 * 65536).
Proof. intros Hw Hp. pose proof (chroma4_lane w p Hw Hp) as E. destruct w as [[a b] c]. exact E. Qed.

Definition uv_regs (smp : sampler) (c : colorimetry) (l0 l1 : list Z) : vec * vec :=
  let '(r0, g0, b0) := load_rgb_8x smp l0 in
  let '(r1, g1, b1) := load_rgb_8x smp l1 in
  rgb_to_uv_8x c (avg_8x r0 r1) (avg_8x g0 g1) (avg_8x b0 b1).

Lemma fst3_r m p : rgb_ok m p -> 0 <= fst3 p <= m.
Proof. destruct p as [[? ?] ?]. cbn. tauto. Qed.
Lemma snd3_r m p : rgb_ok m p -> 0 <= snd3 p <= m.
Proof. destruct p as [[? ?] ?]. cbn. tauto. Qed.
Lemma thd3_r m p : rgb_ok m p -> 0 <= thd3 p <= m.
Proof. destruct p as [[? ?] ?]. cbn. tauto. Qed.

Lemma uv_regs_lanes smp c f g : all_bytes f -> all_bytes g ->
  uv_regs smp c (loaded (Z.to_nat (load_len smp)) f) (loaded (Z.to_nat (load_len smp)) g)
  = (map (raw4 (cb_weights (cs_of c))) (sums smp f g), map (raw4 (cr_weights (cs_of c))) (sums smp f g)).
Proof.
  intros Hf Hg. unfold uv_regs. rewrite !load8. unfold rgb_to_uv_8x.
  pose proof (cb_weights_neon c) as E. pose proof (cr_weights_neon c) as E'.
  destruct (uv_weights c) as [[[[w0 w1] w2] w3] w4]. rewrite E, E'. clear E E'.
  cbv zeta. rewrite !high_avg by auto using fst3_add, snd3_add, thd3_add, fst3_r, snd3_r, thd3_r.
  unfold vrshrn_n_s32, vshrq_n_s32, vmlal_n_s16, vmull_n_s16.
  rewrite !map_map, !map2_map, !map_map.
  f_equal; apply map_ext; intros p; unfold raw4; rewrite madd3, !i32_mod; auto.
Qed.

Definition fuv smp c l0 l1 : list Z :=
  let '(lo, hi) := uv_regs smp c l0 l1 in chroma_8x (vcombine (vzip1_16 lo hi) (vzip2_16 lo hi)).
Definition u_then_v smp c l0 l1 : list Z :=
  let '(lo, hi) := uv_regs smp c l0 l1 in chroma_8x (vcombine lo hi).
Definition fu smp c l0 l1 := firstn 4 (u_then_v smp c l0 l1).
Definition fv smp c l0 l1 := skipn 4 (u_then_v smp c l0 l1).

Lemma chroma_explicit (l : list Z) : length l = 8%nat ->
  chroma_8x l = map (fun x => sat 0 255 ((x + 128) mod 65536)) l.
Proof. intros H. rewrite <- (bias_lanes (fun x => x)) by auto. rewrite map_id. auto. Qed.

Lemma fuv_neon smp c : fuv_ok 8 (Z.to_nat (load_len smp)) neon_arith smp (cs_of c) (fuv smp c).
Proof.
  intros f g Hf Hg. unfold fuv. rewrite uv_regs_lanes by auto.
  set (B := cb_weights (cs_of c)). set (R := cr_weights (cs_of c)).
  change (vcombine _ _) with
    (map (fun j => if j mod 2 =? 0 then raw4 B (gsum smp f g (j / 2)) else raw4 R (gsum smp f g (j / 2))) (zseq 0 8)).
  rewrite bias_lanes by reflexivity. apply map_ext. intros j.
  cbn [ar_cb ar_cr neon_arith]. unfold blue_diff_up, red_diff_up. fold B R.
  destruct (j mod 2 =? 0); apply raw4_val; auto using gsum_ok, chroma_w_cb, chroma_w_cr;
    subst B R; auto using gsum_ok, chroma_w_cb, chroma_w_cr.
Qed.

Lemma u_then_v_lanes smp c f g : all_bytes f -> all_bytes g ->
  u_then_v smp c (loaded (Z.to_nat (load_len smp)) f) (loaded (Z.to_nat (load_len smp)) g)
  = map (blue_diff_up (cs_of c) 4) (sums smp f g) ++ map (red_diff_up (cs_of c) 4) (sums smp f g).
Proof.
  intros Hf Hg. unfold u_then_v. rewrite uv_regs_lanes by auto.
  rewrite chroma_explicit by (unfold vcombine; rewrite app_length, !map_length; reflexivity).
  unfold vcombine. rewrite map_app, !map_map.
  f_equal; apply map_ext_in; intros p Hp; apply raw4_val;
    eauto using sums_ok, chroma_w_cb, chroma_w_cr.
Qed.

Lemma fu_neon smp c : fu_ok 4 (Z.to_nat (load_len smp)) neon_arith smp (cs_of c) (fu smp c).
Proof. intros f g Hf Hg. unfold fu. rewrite u_then_v_lanes by auto. reflexivity. Qed.
Lemma fv_neon smp c : fv_ok 4 (Z.to_nat (load_len smp)) neon_arith smp (cs_of c) (fv smp c).
Proof. intros f g Hf Hg. unfold fv. rewrite u_then_v_lanes by auto. reflexivity. Qed.

(** ** The kernels *)
Definition meq {A} (c c' : M A) : Prop := forall T m, c T m = c' T m.

Lemma meq_bind {A B} (c : M A) (k k' : A -> M B) : (forall a, meq (k a) (k' a)) -> meq (bind c k) (bind c k').
Proof. intros H T m. (unfold bind; cbn [run]). destruct (c T m); auto. apply H. Qed.
Lemma meq_for_from n a f f' : (forall i, meq (f i) (f' i)) -> meq (for_from n a f) (for_from n a f').
Proof.
  intros H. revert a. induction n; intros a T m; cbn [for_from]; auto.
  (unfold bind; cbn [run]). rewrite H. destruct (f' a T m); auto. apply IHn.
Qed.
Lemma meq_for n f f' : (forall i, meq (f i) (f' i)) -> meq (for_ n f) (for_ n f').
Proof. apply meq_for_from. Qed.
Lemma runs_meq {A} T ms dl (c c' : M A) P v : meq c c' -> runs T ms dl c' P v -> runs T ms dl c P v.
Proof. intros H (ws & E & HP). exists ws. split; auto. intros m Hm. rewrite H. apply E; auto. Qed.

Lemma nv12_meq smp c w h ss src dss dst :
  meq (rgb_to_nv12_neon smp (sampler_depth smp) c w h ss src dss dst)
      (vk12 8 (Z.to_nat (load_len smp)) (sampler_depth smp) (fy smp c) (fuv smp c) w h ss src dss dst).
Proof.
  unfold rgb_to_nv12_neon, vk12. destruct dss, dst.
  apply meq_for; intros y. apply meq_for; intros x.
  apply meq_bind; intros i0. apply meq_bind; intros i1. apply meq_bind; intros o0.
  apply meq_bind; intros o1. apply meq_bind; intros o.
  intros T m. (unfold rgb_to_nv12_8x, rgb_to_y_and_avg_uv_8x, bind; cbn [run]).
  destruct (ldn src i0 _ T m) as [l0 m0|]; auto.
  unfold fy at 1. unfold fuv, uv_regs.
  destruct (load_rgb_8x smp l0) as [[r0 g0] b0]. cbn [run].
  destruct (stn _ o0 _ T m0) as [[] m1|]; auto.
  destruct (ldn src i1 _ T m1) as [l1 m2|]; auto.
  unfold fy. destruct (load_rgb_8x smp l1) as [[r1 g1] b1]. cbn [run].
  destruct (stn _ o1 _ T m2) as [[] m3|]; auto.
Qed.

Lemma i420_meq smp c w h ss src dss dst :
  meq (rgb_to_i420_neon smp (sampler_depth smp) c w h ss src dss dst)
      (vk420 8 (Z.to_nat (load_len smp)) (sampler_depth smp) (fy smp c) (fu smp c) (fv smp c) w h ss src dss dst).
Proof.
  unfold rgb_to_i420_neon, vk420. destruct dss as [[? ?] ?], dst as [[? ?] ?].
  apply meq_for; intros y. apply meq_for; intros x.
  apply meq_bind; intros i0. apply meq_bind; intros i1. apply meq_bind; intros o0.
  apply meq_bind; intros o1. apply meq_bind; intros ou. apply meq_bind; intros ov.
  intros T m. (unfold rgb_to_i420_8x, rgb_to_y_and_avg_uv_8x, bind; cbn [run]).
  destruct (ldn src i0 _ T m) as [l0 m0|]; auto.
  unfold fy at 1. unfold fu, fv, u_then_v, uv_regs.
  destruct (load_rgb_8x smp l0) as [[r0 g0] b0]. cbn [run].
  destruct (stn _ o0 _ T m0) as [[] m1|]; auto.
  destruct (ldn src i1 _ T m1) as [l1 m2|]; auto.
  unfold fy. destruct (load_rgb_8x smp l1) as [[r1 g1] b1]. cbn [run].
  destruct (stn _ o1 _ T m2) as [[] m3|]; auto.
Qed.

Lemma i444_meq smp c w h ss src dss dst :
  meq (rgb_to_i444_neon smp (sampler_depth smp) c w h ss src dss dst)
      (vk444 8 (Z.to_nat (load_len smp)) (sampler_depth smp) (fy smp c) (fu4 smp c) (fv4 smp c) w h ss src dss dst).
Proof.
  unfold rgb_to_i444_neon, vk444. destruct dss as [[? ?] ?], dst as [[? ?] ?].
  apply meq_for; intros y. apply meq_for; intros x.
  apply meq_bind; intros i. apply meq_bind; intros oy. apply meq_bind; intros ou. apply meq_bind; intros ov.
  apply meq_bind; intros l. intros T m. unfold fy, fu4, fv4.
  destruct (load_rgb_8x smp l) as [[r g] b]. destruct (uv_weights c) as [[[[w0 w1] w2] w3] w4]. auto.
Qed.

Lemma rgb_to_nv12_neon_ok T smp c :
  v12_ok T 8 0 neon_arith smp c (rgb_to_nv12_neon smp (sampler_depth smp) c).
Proof.
  intros ms dl HB k cw ch w h src ss ybuf ny ys uvbuf nuv uvs. intros.
  eapply runs_meq; [apply nv12_meq|].
  eapply (vk12_ok T 4 _ 0); eauto using fy_neon, fuv_neon; destruct smp; cbn; lia.
Qed.
Lemma rgb_to_i420_neon_ok T smp c :
  v420_ok T 8 0 neon_arith smp c (rgb_to_i420_neon smp (sampler_depth smp) c).
Proof.
  intros ms dl HB k cw ch w h src ss ybuf ny ys ubuf nu us vbuf nv vs. intros.
  eapply runs_meq; [apply i420_meq|].
  eapply (vk420_ok T 4 _ 0); eauto using fy_neon, fu_neon, fv_neon; destruct smp; cbn; lia.
Qed.
Lemma rgb_to_i444_neon_ok T smp c :
  v444_ok T 8 0 neon_arith smp c (rgb_to_i444_neon smp (sampler_depth smp) c).
Proof.
  intros ms dl HB k w h src ss ybuf ny ys ubuf nu us vbuf nv vs. intros.
  eapply runs_meq; [apply i444_meq|].
  eapply (vk444_ok T 8 _ 0); eauto using fy_neon, fu4_neon, fv4_neon; destruct smp; cbn; lia.
Qed.
