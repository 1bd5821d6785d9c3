(** [convert_image] with any instruction set: what the contracts of [SetProofs] and the
    comparison of [Pad] give together. *)
From Coq Require Import ZArith List Bool Lia ZifyBool ZifyNat.
Import ListNotations.
From Verif Require Import Base Exec Area Fmt Dispatch Common Scalar Wrappers Vector CpuInfo Lib Sets Spec SimdSpec
  SetSpec ApiSpec Api PixelFacts KernelBase WrapperFacts ConvProofs HybridFacts LibFacts ApiProofs SetProofs
  FinalProofs ConvertProofs ResultFacts Quiet CallFacts Pad.
From Verif Require Sse2 Avx2.
Open Scope Z_scope.
Ltac Zify.zify_post_hook ::= Z.div_mod_to_equations.

Lemma over_read_le set spf dpf w : over_read set spf dpf w <= 8.
Proof. unfold over_read. destruct set, spf, (is_rgb dpf); try lia; destruct (_ <=? w); lia. Qed.

Lemma over_read_pos set spf dpf w : 0 < over_read set spf dpf w ->
  (set = CpuInfo.Sse2 \/ set = CpuInfo.Avx2) /\ spf = Bgr /\ is_rgb dpf = false.
Proof. unfold over_read. destruct set, spf, (is_rgb dpf); try lia; tauto. Qed.

Section Padded.
Variable T : target.
Hypothesis HT : is_target T.
Variables b pad : list Z.
Variable rest : list (list Z).
Hypothesis Hb : zlen (b ++ pad) < usz T.

Let S1 := b :: rest.
Let S2 := (b ++ pad) :: rest.

Lemma padded_mem n : exists p, nth n S2 [] = nth n S1 [] ++ p.
Proof. destruct n; [exists pad; reflexivity|exists []; cbn; rewrite app_nil_r; reflexivity]. Qed.

Lemma padded_slices : longer_first T (arr_of (rust_slices Src S1)) (arr_of (rust_slices Src S2)).
Proof.
  unfold S1, S2, rust_slices, arr_of, longer_first. cbn [slices_from adata alen]. split; [reflexivity|].
  cbn [nth_error]. split; [|exact Hb]. unfold longer. cbn [s_plane s_off s_len].
  repeat split; eauto. unfold zlen. rewrite app_length. lia.
Qed.

Lemma vp3 k : 0 <= k -> forall w, 0 <= w -> 0 <= fwd_vector_part (2 ^ k) 3 w <= w.
Proof. intros Hk w Hw. destruct (vp_fwd k 3 Hk w Hw) as (m & E & H). lia. Qed.

Lemma usz_pos : 0 < usz T.
Proof. destruct HT as [[-> _]|[-> _]]; lia. Qed.

Lemma call_pad set dpf cs w h l1 ss l2 ds db :
  set = CpuInfo.Sse2 \/ set = CpuInfo.Avx2 -> 0 <= w -> strides_nonneg ss -> 3 * w <= zlen b ->
  sim T S1 S2 refused
    (converters set (Rgb_yuv Bgr dpf cs) w h l1 ss (arr_of (rust_slices Src S1)) l2 ds db)
    (converters set (Rgb_yuv Bgr dpf cs) w h l1 ss (arr_of (rust_slices Src S2)) l2 ds db).
Proof.
  intros Hset Hw Hss Hrow.
  assert (HR : row_in 3 w (arr_of (rust_slices Src S1))).
  { intros s E. unfold S1, rust_slices, arr_of in E. cbn [slices_from adata nth_error] in E.
    injection E as <-. exact Hrow. }
  pose proof padded_slices. pose proof padded_mem. pose proof usz_pos.
  assert (N2 : forall c, pads_1_2' T S1 S2 3 (hyb_1_2 (fwd_vector_part Sse2.RGB_TO_YUV_WAVES 3) 3
     (Sse2.rgb_to_nv12_sse2 S_Bgr 3 c) (rgb_to_nv12 S_Bgr 3 c))).
  { intros c. apply pads_hyb_1_2; auto; [lia|apply (vp3 2); lia|apply pads_nv12_sse2; auto|apply pads_nv12; auto]. }
  assert (I2 : forall c, pads_1_3' T S1 S2 3 (hyb_1_3 (fwd_vector_part Sse2.RGB_TO_YUV_WAVES 3) 2 3
     (Sse2.rgb_to_i420_sse2 S_Bgr 3 c) (rgb_to_i420 S_Bgr 3 c))).
  { intros c. apply pads_hyb_1_3; auto; [lia|apply (vp3 2); lia|apply pads_i420_sse2; auto|apply pads_i420; auto]. }
  assert (J2 : forall c, pads_1_3' T S1 S2 3 (hyb_1_3 (fwd_vector_part Sse2.RGB_TO_YUV_WAVES 3) 1 3
     (Sse2.rgb_to_i444_sse2 S_Bgr 3 c) (rgb_to_i444 S_Bgr 3 c))).
  { intros c. apply pads_hyb_1_3; auto; [lia|apply (vp3 2); lia|apply pads_i444_sse2; auto|apply pads_i444; auto]. }
  assert (N3 : forall c, pads_1_2' T S1 S2 3 (hyb_1_2 (fwd_vector_part Avx2.RGB_TO_YUV_WAVES 3) 3
     (Avx2.rgb_to_nv12_avx2 S_Bgr 3 c) (rgb_to_nv12 S_Bgr 3 c))).
  { intros c. apply pads_hyb_1_2; auto; [lia|apply (vp3 3); lia|apply pads_nv12_avx2; auto|apply pads_nv12; auto]. }
  assert (I3 : forall c, pads_1_3' T S1 S2 3 (hyb_1_3 (fwd_vector_part Avx2.RGB_TO_YUV_WAVES 3) 2 3
     (Avx2.rgb_to_i420_avx2 S_Bgr 3 c) (rgb_to_i420 S_Bgr 3 c))).
  { intros c. apply pads_hyb_1_3; auto; [lia|apply (vp3 3); lia|apply pads_i420_avx2; auto|apply pads_i420; auto]. }
  assert (J3 : forall c, pads_1_3' T S1 S2 3 (hyb_1_3 (fwd_vector_part Avx2.RGB_TO_YUV_WAVES 3) 1 3
     (Avx2.rgb_to_i444_avx2 S_Bgr 3 c) (rgb_to_i444 S_Bgr 3 c))).
  { intros c. apply pads_hyb_1_3; auto; [lia|apply (vp3 3); lia|apply pads_i444_avx2; auto|apply pads_i444; auto]. }
  destruct Hset as [-> | ->]; cbn [converters sse2_converter avx2_converter];
    destruct dpf; cbn [sampler_of pf_depth];
    unfold Sse2.sse2_rgb_i444, Sse2.sse2_rgb_i420, Sse2.sse2_rgb_nv12, Avx2.avx2_rgb_i444, Avx2.avx2_rgb_i420, Avx2.avx2_rgb_nv12;
    first [apply sim_rgb_nv12; auto|apply sim_rgb_i4xx; auto].
Qed.
End Padded.

(** The bytes SSE2 and AVX2 read after the last pixel of BGR images are there. *)
Lemma image_in_dec k im w h bufs : {image_in k im w h bufs} + {~ image_in k im w h bufs}.
Proof. apply Forall_dec. intros g. unfold plane_in. apply Z_le_dec. Qed.

Lemma strides_default_nonneg usz im : strides_below usz im ->
  strides_nonneg (strides_or_default (option_map arr_of (i_strides im))).
Proof.
  unfold strides_below, strides_nonneg. destruct (i_strides im) as [l|]; cbn [option_map strides_or_default arr_of adata].
  - apply Forall_impl. intros; lia.
  - intros _. unfold DEFAULT_STRIDES, STRIDE_AUTO. repeat (apply Forall_cons; [lia|]). apply Forall_nil.
Qed.

Lemma convert_pad T set w h src dst b pad rest db : is_target T ->
  set = CpuInfo.Sse2 \/ set = CpuInfo.Avx2 -> 0 <= w ->
  planes_u32 src -> planes_u32 dst -> strides_below (usz T) src ->
  i_pf src = Bgr -> is_rgb (i_pf dst) = false -> 3 * w <= zlen b -> zlen (b ++ pad) < usz T ->
  let r2 := convert (converters set) T w h src dst ((b ++ pad) :: rest) db in
  match convert (converters set) T w h src dst (b :: rest) db with
  | Ok (Err _) _ => True
  | Ok Success m1 => exists m2, r2 = Ok Success m2 /\ srcs m1 = b :: rest /\ dsts m1 = dsts m2
  | Fault OOB_read => True
  | Fault f => r2 = Fault f
  end.
Proof.
  intros HT Hset Hw Us Ud Ss Ps Pd Hrow Hlen r2. subst r2. unfold convert.
  set (ss := option_map arr_of (i_strides src)). set (ds := option_map arr_of (i_strides dst)).
  set (dd := arr_of (rust_slices Dst db)).
  destruct (convert_image_cases (converters set) w h src ss (arr_of (rust_slices Src (b :: rest))) dst ds dd T
              (Mem (b :: rest) db) Us Ud) as [[_ E]|[(_ & _ & _ & E)|(Vs & Vd & Hsup & E)]].
  - rewrite E. exact I.
  - rewrite E. exact I.
  - destruct (convert_image_cases (converters set) w h src ss (arr_of (rust_slices Src ((b ++ pad) :: rest))) dst ds dd T
              (Mem ((b ++ pad) :: rest) db) Us Ud) as [[N _]|[(_ & _ & N & _)|(_ & _ & _ & E')]];
      [tauto|congruence|].
    rewrite E, E'. (unfold call_converter, bind, ret, conv_of; cbn [run]). rewrite Ps, Pd. cbn [is_rgb].
    pose proof (call_pad T HT b pad rest Hlen set (i_pf dst) (i_cs dst) w h (u32 (i_planes src - 1)) (strides_or_default ss)
      (u32 (i_planes dst - 1)) (strides_or_default ds) dd Hset Hw (strides_default_nonneg _ _ Ss) Hrow
      (Mem (b :: rest) db) (Mem ((b ++ pad) :: rest) db) (conj eq_refl (conj eq_refl eq_refl))) as C.
    destruct (converters set _ w h _ _ (arr_of (rust_slices Src (b :: rest))) _ _ dd T (Mem (b :: rest) db)) as [v m1|f].
    + destruct v; [|exact I]. destruct C as [C|(m2 & -> & (G1 & G2 & G3))]; [discriminate C|].
      exists m2. auto.
    + destruct f; auto; rewrite C; reflexivity.
Qed.

Section AnySet.
Variable set : instruction_set.
Variable T : target.
Hypothesis HT : is_target T.

Let cols src dst w := set_cols set (i_pf src) (i_pf dst) w.

Lemma pad_pixels src w h b pad rest x y : i_pf src = Bgr -> image_in 0 src w h (b :: rest) ->
  0 <= x < w -> 0 <= y < h -> 0 <= eff_stride (i_strides src) 0 (3 * w) ->
  pixel src w h ((b ++ pad) :: rest) x y = pixel src w h (b :: rest) x y.
Proof.
  intros Ps Is Hx Hy Hst. unfold pixel, image_in, image_planes in *. rewrite Ps in *. cbn [is_rgb planes bytes_per_pixel] in *.
  pose proof (Forall_inv Is) as I1. clear Is. unfold plane_in, buf_len in I1. cbn [g_base g_rows g_stride g_row g_buf nth] in I1.
  set (s := eff_stride (i_strides src) 0 (3 * w)) in *. clearbody s.
  assert (0 <= y * s) by (apply Z.mul_nonneg_nonneg; lia).
  assert (y * s <= (h - 1) * s) by (apply Z.mul_le_mono_nonneg_r; lia).
  unfold rgb_pixel, sample, nth_plane. cbn [component_offsets bytes_per_pixel nth g_base g_stride g_buf].
  rewrite !app_nth1 by lia. reflexivity.
Qed.

Lemma pad_converted A src dst w h b pad rest db after : i_pf src = Bgr ->
  image_in 0 src w h (b :: rest) -> 0 <= eff_stride (i_strides src) 0 (3 * w) -> valid_size (i_pf dst) w h ->
  converted A src dst w h ((b ++ pad) :: rest) db after -> converted A src dst w h (b :: rest) db after.
Proof.
  intros Ps Is Hst Vd (L & S & F). split; [exact L|]. split; [|exact F].
  intros p g E y j Hy Hj. rewrite (S p g E y j Hy Hj).
  apply expected_local with (g := g); auto. intros px py Hx Hy' _.
  apply source_rgb_pixel; auto. apply pad_pixels; auto.
Qed.

(** When the image is not inside of its buffer. *)
Lemma pad_buffer src w h bufs k : i_pf src = Bgr -> enough_planes src bufs -> i_planes src = 1 ->
  0 < w -> 0 < h -> 0 <= eff_stride (i_strides src) 0 (3 * w) -> image_in 0 src w h bufs -> k <= 8 ->
  exists b rest, bufs = b :: rest /\ 3 * w <= zlen b /\ image_in k src w h ((b ++ repeat 0 8) :: rest).
Proof.
  intros Ps (En & _) Pn Hw Hh Hst Is Hk. unfold image_in, image_planes in *. rewrite Ps in *. cbn [planes bytes_per_pixel] in *.
  pose proof (Forall_inv Is) as I1. clear Is. unfold plane_in, buf_len in I1. cbn [g_base g_rows g_stride g_row g_buf nth] in I1.
  destruct bufs as [|b rest]; [cbn in En; lia|]. exists b, rest. split; [reflexivity|].
  set (s := eff_stride (i_strides src) 0 (3 * w)) in *. clearbody s.
  assert (0 <= (h - 1) * s) by (apply Z.mul_nonneg_nonneg; lia).
  cbn [nth] in I1. unfold zlen. split; [lia|].
  constructor; [|constructor]. unfold plane_in, buf_len. cbn [g_base g_rows g_stride g_row g_buf nth].
  rewrite app_length, repeat_length. lia.
Qed.

Lemma pad_ok b rest lim : buffers_ok lim (b :: rest) -> buffers_ok (lim + 8) ((b ++ repeat 0 8) :: rest).
Proof.
  intros H. inversion_clear H as [|? ? [H1 H2] H3]. constructor.
  - split; [rewrite app_length, repeat_length; lia|]. apply Forall_app. split; auto.
    cbn [repeat]. repeat constructor; lia.
  - apply Forall_impl with (2 := H3). intros q [? ?]. split; [lia|auto].
Qed.

(** The general case, in terms of images that are inside of their buffers. *)
Lemma set_cases w h src dst sb db :
  well_formed (usz T) w h src dst sb db -> sizes_ok T src dst w h ->
  let valid := valid_image src w h /\ valid_image dst w h in
  let supp := supported (i_pf src) (i_pf dst) in
  let enough := enough_planes src sb /\ enough_planes dst db in
  let r := convert (converters set) T w h src dst sb db in
  let m := Mem sb db in
  let stopped := r = Fault OOB_read /\ ~ room set src dst w h sb in
  (~ valid /\ r = Ok (Err InvalidValue) m) \/
  (valid /\ supp = false /\ r = Ok (Err InvalidOperation) m) \/
  (valid /\ supp = true /\ (w = 0 \/ h = 0) /\ r = Ok Success m) \/
  (valid /\ supp = true /\ 0 < w /\ 0 < h /\ ~ enough /\ r = Ok (Err NotEnoughData) m) \/
  (valid /\ supp = true /\ 0 < w /\ 0 < h /\ enough /\ size_check w h src dst sb db = false /\ r = Ok (Err NotEnoughData) m) \/
  (valid /\ supp = true /\ 0 < w /\ 0 < h /\ enough /\ size_check w h src dst sb db = true /\
   (forall e m', r <> Ok (Err e) m') /\
   (image_in 0 src w h sb -> image_in 0 dst w h db ->
    (both_rgb src dst = true -> rows_apart src w h /\ rows_apart dst w h) ->
    (exists after, r = Ok Success (Mem sb after) /\ map (@length Z) after = map (@length Z) db) \/ stopped) /\
   (image_in 0 src w h sb -> image_in 0 dst w h db ->
    (both_rgb src dst = true -> rows_apart src w h) -> rows_apart dst w h ->
    (exists after, r = Ok Success (Mem sb after) /\ converted (cols src dst w) src dst w h sb db after) \/ stopped)).
Proof.
  intros HW HO valid supp enough r m stopped.
  destruct (format_planes_u32 _ _ _ _ _ _ _ HW) as [Us Ud].
  destruct HW as (W & H & _ & _ & Ss & Sd & Bs & Bd).
  destruct (convert_rust_cases T HT (set_cols set) (set_slack set) (converters set) (set_ok set T) w h W H
              src dst sb db Bd Ss Sd Bs Us Ud HO) as [C|[C|[C|[C|[C|C]]]]];
    [left; exact C|right; left; exact C|do 2 right; left; exact C|do 3 right; left; exact C
    |do 4 right; left; exact C|].
  destruct C as (V & Hsup & W0 & H0 & En & Ck & Er & C1 & C2). do 5 right.
  do 7 (split; [assumption|]). destruct V as [Vs Vd].
  rewrite (slack_of_set set src dst w Hsup) in C1, C2.
  destruct (image_in_dec (over_read set (i_pf src) (i_pf dst) w) src w h sb) as [R|R].
  { split; intros; left; [apply C1|apply C2]; auto. }
  assert (K : image_in 0 src w h sb -> (set = CpuInfo.Sse2 \/ set = CpuInfo.Avx2) /\ i_pf src = Bgr /\ is_rgb (i_pf dst) = false).
  { intros Is. apply over_read_pos with (w := w). destruct (Z_lt_le_dec 0 (over_read set (i_pf src) (i_pf dst) w)); auto.
    exfalso. apply R. pose proof (over_read_nonneg set (i_pf src) (i_pf dst) w).
    replace (over_read set (i_pf src) (i_pf dst) w) with 0 by lia. exact Is. }
  pose proof (isize_usz T HT) as (Z1 & Z2 & Z3).
  assert (Hst : 0 <= eff_stride (i_strides src) 0 (3 * w)).
  { unfold strides_below in Ss. unfold eff_stride. destruct (i_strides src) as [l|]; [|lia].
    destruct (nth_in_or_default 0%nat l 0) as [Hi|Hi].
    - rewrite Forall_forall in Ss. specialize (Ss _ Hi). destruct (nth 0 l 0 =? 0); lia.
    - rewrite Hi. change (0 =? 0) with true. cbv iota. lia. }
  assert (G : image_in 0 src w h sb -> image_in 0 dst w h db -> rows_apart dst w h \/ True ->
     (r = Fault OOB_read) \/
     exists after, r = Ok Success (Mem sb after) /\ map (@length Z) after = map (@length Z) db /\
       (rows_apart dst w h -> converted (cols src dst w) src dst w h sb db after)).
  { intros Is Id _. destruct (K Is) as (Hset & Ps & Pd).
    assert (Pn : i_planes src = 1) by (destruct Vs as (_ & Vs & _); rewrite Ps in Vs; exact Vs).
    destruct (pad_buffer src w h sb (over_read set (i_pf src) (i_pf dst) w) Ps (proj1 En) Pn W0 H0 Hst Is
                (over_read_le _ _ _ _)) as (b & rest & -> & Hrow & Hin).
    pose proof (pad_ok b rest _ Bs) as Bp. change (usz T / 2 - 1 + 8) with (isize_max T + 8) in Bp.
    assert (Hlen : zlen (b ++ repeat 0 8) < usz T).
    { pose proof (proj1 (Forall_inv Bp)) as B1. unfold zlen. lia. }
    assert (Hbr : both_rgb src dst = false) by (unfold both_rgb; rewrite Pd; apply andb_false_r).
    pose proof (convert_pad T set w h src dst b (repeat 0 8) rest db HT Hset ltac:(lia) Us Ud Ss Ps Pd Hrow Hlen) as P.
    cbv zeta in P. fold r in P.
    pose proof (convert_rust_cases_pad T HT (set_cols set) (set_slack set) (converters set) (set_ok set T) w h W H
              src dst ((b ++ repeat 0 8) :: rest) db Bd Ss Sd Bp ltac:(congruence) Us Ud HO) as C.
    cbv zeta in C. rewrite (slack_of_set set src dst w Hsup) in C.
    set (r2 := convert (converters set) T w h src dst ((b ++ repeat 0 8) :: rest) db) in *.
    destruct r as [o m1|f] eqn:Er0.
    2:{ destruct f; auto; exfalso; destruct C as [C|[C|[C|[C|[C|C]]]]];
          try (intuition (congruence || lia));
          destruct C as (_ & _ & _ & _ & _ & _ & _ & C & _);
          destruct (C Hin Id ltac:(congruence)) as (a & C' & _); congruence. }
    destruct o as [|e]; [|exfalso; exact (Er _ _ Er0)].
    right. destruct P as (m2 & P1 & P2 & P3).
    destruct C as [C|[C|[C|[C|[C|C]]]]]; try (exfalso; intuition (congruence || lia)).
    destruct C as (_ & _ & _ & _ & _ & _ & _ & C & C').
    destruct (C Hin Id ltac:(congruence)) as (a & Ea & La). exists a.
    rewrite P1 in Ea. injection Ea as Ea. rewrite Ea in P3. cbn [dsts] in P3.
    split; [destruct m1 as [q1 q2]; cbn [srcs dsts] in *; congruence|]. split; [exact La|].
    intros Rd. destruct (C' Hin Id ltac:(congruence) Rd) as (a' & Ea' & Ca').
    rewrite P1, Ea in Ea'. injection Ea' as <-.
    apply pad_converted with (pad := repeat 0 8); auto. apply Vd. }
  assert (NR : ~ room set src dst w h sb) by exact R.
  split.
  - intros Is Id _. destruct (G Is Id (or_intror I)) as [E|(a & E & L & _)]; [right; split; auto|left; eauto].
  - intros Is Id _ Rd. destruct (G Is Id (or_intror I)) as [E|(a & E & _ & L)]; [right; split; auto|left; eauto].
Qed.
End AnySet.
