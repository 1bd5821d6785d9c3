(** Facts behind the property theorems, for every instruction set. *)
From Coq Require Import ZArith List Bool Lia ZifyBool ZifyNat.
Import ListNotations.
From Verif Require Import Base Exec Area Fmt Dispatch Common Scalar Wrappers CpuInfo Lib Sets Spec SimdSpec SetSpec
  ApiSpec Api PixelFacts KernelBase WrapperFacts ConvProofs LibFacts ApiProofs SetProofs FinalProofs ConvertProofs
  ResultFacts Quiet CallFacts PadFacts.
Open Scope Z_scope.
Ltac Zify.zify_post_hook ::= Z.div_mod_to_equations.

Lemma any_accepted set T w h src dst sb db e m' : is_target T ->
  documented_call (usz T) w h src dst sb db ->
  convert (converters set) T w h src dst sb db <> Ok (Err e) m'.
Proof. intros HT H. apply (documented_accepted T HT (set_cols set) (set_slack set) (converters set) (set_ok set T)); auto. Qed.

Lemma any_quiet set T src dst w h ss sb ds db m e m' :
  0 <= i_planes src < 2 ^ 32 -> 0 <= i_planes dst < 2 ^ 32 ->
  convert_image (converters set) w h (format_of src) ss sb (format_of dst) ds db T m = Ok (Err e) m' -> m' = m.
Proof. intros Us Ud. apply (convert_image_quiet T (set_cols set) (set_slack set) (converters set) (set_ok set T)); auto. Qed.

Lemma any_errors set T src dst w h ss sb ds db m :
  0 <= i_planes src < 2 ^ 32 -> 0 <= i_planes dst < 2 ^ 32 ->
  let r := convert_image (converters set) w h (format_of src) ss sb (format_of dst) ds db T m in
  let valid := valid_image src w h /\ valid_image dst w h in
  ((exists m', r = Ok (Err InvalidValue) m') <-> ~ valid) /\
  ((exists m', r = Ok (Err InvalidOperation) m') <-> valid /\ supported (i_pf src) (i_pf dst) = false) /\
  ((exists m', r = Ok (Err NotEnoughData) m') -> valid /\ supported (i_pf src) (i_pf dst) = true).
Proof.
  intros Us Ud r valid.
  split; [|split]; try apply (convert_image_errors T (converters set) src dst w h ss sb ds db m Us Ud).
  intros [m' E].
  destruct (convert_image_cases (converters set) w h src ss sb dst ds db T m Us Ud) as [[_ F]|[(_ & _ & _ & F)|(V & V' & S & _)]].
  - fold r in F. congruence.
  - fold r in F. congruence.
  - split; [split; auto|auto].
Qed.

Lemma any_empty set T src dst w h ss sb ds db m :
  valid_image src w h -> valid_image dst w h -> supported (i_pf src) (i_pf dst) = true ->
  w = 0 \/ h = 0 ->
  convert_image (converters set) w h (format_of src) ss sb (format_of dst) ds db T m = Ok Success m.
Proof.
  intros Vs Vd Hsup Hz.
  destruct (convert_image_cases (converters set) w h src ss sb dst ds db T m
     (valid_planes_u32 _ _ _ Vs) (valid_planes_u32 _ _ _ Vd)) as [[N _]|[(_ & _ & N & _)|(_ & _ & _ & E)]];
    [tauto|congruence|].
  rewrite E. unfold call_converter.
  rewrite (bind_eq T m _ _ _ (converter_empty T (set_cols set) (set_slack set) (converters set) (set_ok set T) w h src dst _ _ _ _ m Hz Vs Vd Hsup _ _)).
  reflexivity.
Qed.

Lemma images_sizes_ok T w h src dst sb db : is_target T -> well_formed (usz T) w h src dst sb db ->
  0 < w -> 0 < h -> valid_image src w h -> valid_image dst w h ->
  image_in 0 src w h sb -> image_in 0 dst w h db -> sizes_ok T src dst w h.
Proof.
  intros HT (W & H & _ & _ & Ss & Sd & Bs & Bd) W0 H0 Vs Vd Is Id.
  split; eapply image_in_overflow with (s := 0); eauto; try apply Vs; try apply Vd; try lia;
    intros i; apply buffers_len; auto; destruct (isize_usz T HT); lia.
Qed.

Lemma any_contained set T w h src dst sb db : is_target T ->
  well_formed (usz T) w h src dst sb db ->
  image_in 0 src w h sb -> image_in 0 dst w h db ->
  (is_rgb (i_pf src) && is_rgb (i_pf dst) = true -> rows_apart src w h /\ rows_apart dst w h) ->
  (exists o m', convert (converters set) T w h src dst sb db = Ok o m') \/
  (convert (converters set) T w h src dst sb db = Fault OOB_read /\ ~ room set src dst w h sb).
Proof.
  intros HT HW Is Id Hr.
  destruct (convert_first T (set_cols set) (set_slack set) (converters set) (set_ok set T) w h src dst sb db HW)
    as [C|[C|[C|C]]];
    try (left; destruct C as (? & ->) || destruct C as (? & ? & ->) || destruct C as (? & ? & ? & ->); eauto).
  destruct C as ((Vs & Vd) & Hsup & W0 & H0).
  assert (HO : sizes_ok T src dst w h) by (eapply images_sizes_ok; eauto).
  destruct (set_cases set T HT w h src dst sb db HW HO)
    as [C|[C|[C|[C|[C|C]]]]]; try (left; destruct C as (_ & _ & _ & _ & _ & _ & ->); eauto);
    try (left; destruct C as (_ & _ & _ & _ & _ & ->); eauto); try (exfalso; intuition (congruence || lia)).
  destruct C as (_ & _ & _ & _ & _ & _ & _ & C & _).
  destruct (C Is Id Hr) as [(after & -> & _)|S]; eauto.
Qed.

Lemma any_documented set T w h src dst sb db : is_target T ->
  documented_call (usz T) w h src dst sb db ->
  (exists after, convert (converters set) T w h src dst sb db = Ok Success (Mem sb after) /\
     converted (set_cols set (i_pf src) (i_pf dst) w) src dst w h sb db after) \/
  (convert (converters set) T w h src dst sb db = Fault OOB_read /\ ~ room set src dst w h sb).
Proof.
  intros HT HD. destruct (documented_laid_out _ _ _ _ _ _ _ HD) as [[Is Rs] [Id Rd]].
  pose proof (fun e m' => any_accepted set T w h src dst sb db e m' HT HD) as HE.
  destruct HD as (HW & W0 & H0 & Vs & Vd & Hsup & Es & Ed & Fs & Fd).
  assert (HO : sizes_ok T src dst w h) by (eapply images_sizes_ok; eauto).
  destruct (set_cases set T HT w h src dst sb db HW HO)
    as [C|[C|[C|[C|[C|C]]]]]; try (exfalso; intuition (congruence || lia));
    try (exfalso; destruct C as (_ & _ & _ & _ & _ & _ & C); exact (HE _ _ C)).
  destruct C as (_ & _ & _ & _ & _ & _ & _ & _ & C). apply C; auto.
Qed.

Lemma any_documented_room set T w h src dst sb db : is_target T ->
  documented_call (usz T) w h src dst sb db -> room set src dst w h sb ->
  exists after, convert (converters set) T w h src dst sb db = Ok Success (Mem sb after) /\
     converted (set_cols set (i_pf src) (i_pf dst) w) src dst w h sb db after.
Proof. intros HT HD R. destruct (any_documented set T w h src dst sb db HT HD) as [H|[_ H]]; tauto. Qed.

(** Who reads no more than the image. *)
Lemma room_inside set src dst w h sb : image_in 0 src w h sb ->
  set = X86 \/ set = Neon \/ i_pf src <> Bgr \/ is_rgb (i_pf dst) = true -> room set src dst w h sb.
Proof.
  intros Is H. unfold room. replace (over_read set (i_pf src) (i_pf dst) w) with 0; auto.
  pose proof (over_read_nonneg set (i_pf src) (i_pf dst) w).
  destruct (Z.eq_dec (over_read set (i_pf src) (i_pf dst) w) 0); auto.
  destruct (over_read_pos set (i_pf src) (i_pf dst) w) as ([->| ->] & P & D); [lia| |];
    intuition congruence.
Qed.

Lemma any_targets set T T' w h src dst sb db : is_target T -> usz T' = usz T -> big T' = big T ->
  documented_call (usz T) w h src dst sb db -> room set src dst w h sb ->
  convert (converters set) T w h src dst sb db = convert (converters set) T' w h src dst sb db.
Proof.
  intros HT E EB H R.
  assert (HT' : is_target T') by (unfold is_target, is_target64, is_target32 in *; rewrite E, EB; exact HT).
  destruct (any_documented_room set T w h src dst sb db HT H R) as (a & E1 & C1).
  rewrite <- E in H. destruct (any_documented_room set T' w h src dst sb db HT' H R) as (a' & E2 & C2).
  rewrite E1, E2. repeat f_equal. eapply converted_same; eauto.
Qed.

Lemma any_fault set T w h src dst sb db f : is_target T ->
  documented_call (usz T) w h src dst sb db ->
  convert (converters set) T w h src dst sb db = Fault f -> f = OOB_read.
Proof.
  intros HT H E. destruct (any_documented set T w h src dst sb db HT H) as [(a & E' & _)|[E' _]]; congruence.
Qed.

Lemma sizes_ok64 T src dst w h : is_target64 T -> 0 <= w < 2 ^ 32 ->
  (forall im, im = src \/ im = dst -> i_pf im = Nv12 -> i_planes im = 1 ->
     eff_stride (i_strides im) 0 w * h < 2 ^ 64) -> sizes_ok T src dst w h.
Proof.
  intros HT Hw H. unfold sizes_ok, no_overflow. rewrite (proj1 HT).
  assert (forall pf, bytes_per_pixel pf * w < 2 ^ 64) by (intros []; cbn [bytes_per_pixel]; lia).
  repeat split; auto.
Qed.

Lemma any_accepted_fits set T w h src dst sb db : is_target64 T ->
  well_formed (usz T) w h src dst sb db -> 0 < w -> 0 < h ->
  is_rgb (i_pf src) && is_rgb (i_pf dst) = false ->
  (forall im, im = src \/ im = dst -> i_pf im = Nv12 -> i_planes im = 1 ->
     eff_stride (i_strides im) 0 w * h < 2 ^ 64) ->
  (forall e m', convert (converters set) T w h src dst sb db <> Ok (Err e) m') ->
  forall im bufs, im = src /\ bufs = sb \/ im = dst /\ bufs = db ->
  forall g, In g (image_planes im w h) ->
  (g_rows g = 1 -> g_row g <= g_stride g) -> (2 < g_rows g -> g_stride g <= g_row g) ->
  plane_in 0 bufs g.
Proof.
  intros HT HW W0 H0 Hb Hn He im bufs Hi g Hg E1 E2. assert (E : easy_plane g) by (split; assumption). revert im bufs Hi g Hg E E1 E2.
  enough (forall im bufs, im = src /\ bufs = sb \/ im = dst /\ bufs = db ->
    forall g, In g (image_planes im w h) -> easy_plane g -> plane_in 0 bufs g) by eauto.
  apply (accepted_fits T (or_introl HT) (set_cols set) (set_slack set) (converters set) (set_ok set T) w h src dst sb db HW); auto.
  apply sizes_ok64; auto. apply HW.
Qed.

(** Rows may overlap: a call that is not refused stays inside of its buffers unless a plane of
    several rows has padding. *)
Lemma any_short set T w h src dst sb db : is_target64 T ->
  well_formed (usz T) w h src dst sb db -> 0 < w -> 0 < h ->
  is_rgb (i_pf src) && is_rgb (i_pf dst) = false ->
  (forall im, im = src \/ im = dst -> i_pf im = Nv12 -> i_planes im = 1 ->
     eff_stride (i_strides im) 0 w * h < 2 ^ 64) ->
  (forall im, im = src \/ im = dst -> forall g, In g (image_planes im w h) ->
     (g_rows g = 1 -> g_row g <= g_stride g) /\ (2 < g_rows g -> g_stride g <= g_row g)) ->
  (exists o m', convert (converters set) T w h src dst sb db = Ok o m') \/
  (convert (converters set) T w h src dst sb db = Fault OOB_read /\ ~ room set src dst w h sb).
Proof.
  intros HT HW W0 H0 Hb Hn He. destruct (convert (converters set) T w h src dst sb db) as [o m|f] eqn:E; [left; eauto|].
  assert (A : forall im bufs, im = src /\ bufs = sb \/ im = dst /\ bufs = db -> image_in 0 im w h bufs).
  { intros im bufs Hi. apply Forall_forall. intros g Hg. destruct (He im (ltac:(tauto)) g Hg) as [E1 E2].
    revert g Hg E1 E2. apply (any_accepted_fits set T w h src dst sb db HT HW W0 H0 Hb Hn); auto.
    intros e m' E'. congruence. }
  rewrite <- E. apply any_contained; auto; [left; exact HT|congruence].
Qed.

(** ** Results of successful calls *)

Lemma success_valid impl T w h src dst sb db m' : successful_call impl T w h src dst sb db m' ->
  valid_image src w h /\ valid_image dst w h /\ supported (i_pf src) (i_pf dst) = true.
Proof.
  intros (_ & HW & _ & _ & _ & _ & E). destruct (format_planes_u32 _ _ _ _ _ _ _ HW) as [Us Ud].
  destruct (convert_image_cases impl w h src (option_map arr_of (i_strides src)) (arr_of (rust_slices Src sb))
              dst (option_map arr_of (i_strides dst)) (arr_of (rust_slices Dst db)) T (Mem sb db) Us Ud)
    as [[_ F]|[(_ & _ & _ & F)|(V & V' & S & _)]]; auto; unfold convert in E; congruence.
Qed.

Lemma success_conv set T w h src dst sb db m' : successful_call (converters set) T w h src dst sb db m' ->
  srcs m' = sb /\ converted (set_cols set (i_pf src) (i_pf dst) w) src dst w h sb db (dsts m').
Proof.
  intros HS. destruct (success_valid _ _ _ _ _ _ _ _ _ HS) as (Vs & Vd & Hsup).
  destruct HS as (HT & HW & W0 & H0 & [Is Rs] & [Id Rd] & E).
  assert (HO : sizes_ok T src dst w h) by (eapply images_sizes_ok; eauto).
  destruct (set_cases set T HT w h src dst sb db HW HO)
    as [C|[C|[C|[C|[C|C]]]]]; try (exfalso; intuition (congruence || lia)).
  destruct C as (_ & _ & _ & _ & _ & _ & _ & _ & C).
  destruct (C Is Id (fun _ => Rs) Rd) as [(a & E' & HC)|[E' _]]; [|congruence].
  rewrite E' in E. injection E as <-. auto.
Qed.

(** The arithmetic in use. *)
Lemma cols_luma set spf dpf w x : ar_luma (set_cols set spf dpf w x) = luma.
Proof. unfold set_cols, left_cols. destruct set; [reflexivity|..]; destruct (x <? _); reflexivity. Qed.
Lemma cols_chroma set spf dpf w x : set <> Neon ->
  ar_cb (set_cols set spf dpf w x) = blue_diff /\ ar_cr (set_cols set spf dpf w x) = red_diff.
Proof.
  intros H. unfold set_cols, left_cols.
  destruct set; [..|contradiction]; try (destruct (x <? _)); split; reflexivity.
Qed.
Lemma cols_neon spf dpf w x : is_rgb spf = true -> is_rgb dpf = false ->
  ar_cb (set_cols Neon spf dpf w x) = (if x <? 8 * (w / 8) then blue_diff_up else blue_diff) /\
  ar_cr (set_cols Neon spf dpf w x) = (if x <? 8 * (w / 8) then red_diff_up else red_diff).
Proof.
  intros Rs Rd. unfold set_cols, left_cols, vector_part. rewrite Rs, Rd.
  destruct (x <? 8 * (w / 8)); split; reflexivity.
Qed.
Lemma cols_rgb set spf dpf w x : is_rgb spf = false -> is_rgb dpf = true -> 0 <= x ->
  ar_rgb (set_cols set spf dpf w x) =
  if x <? vector_part set spf dpf w then ycc_to_rgb_wrap else ycc_to_rgb.
Proof.
  intros Rs Rd Hx. unfold set_cols, left_cols. destruct set.
  - unfold vector_part. rewrite ?Rs. destruct (Z.ltb_spec x 0); [lia|reflexivity].
  - destruct (x <? _); reflexivity.
  - destruct (x <? _); reflexivity.
  - unfold vector_part. rewrite ?Rs. destruct (Z.ltb_spec x 0); [lia|reflexivity].
Qed.

Lemma c14 set T w h src dst sb db m' : successful_call (converters set) T w h src dst sb db m' ->
  is_rgb (i_pf src) = true -> is_rgb (i_pf dst) = false ->
  let A x := set_cols set (i_pf src) (i_pf dst) w x in
  let cb x := ar_cb (A x) (i_cs dst) in
  let cr x := ar_cr (A x) (i_cs dst) in
  let out p := sample (dsts m') (plane_of dst w h p) in
  let px := pixel src w h sb in
  (forall x y, 0 <= x < w -> 0 <= y < h -> out 0%nat y x = luma (i_cs dst) (px x y)) /\
  (i_pf dst = I444 -> forall x y, 0 <= x < w -> 0 <= y < h ->
     out 1%nat y x = cb x 1 (px x y) /\ out 2%nat y x = cr x 1 (px x y)) /\
  (i_pf dst = I420 -> forall x y, 0 <= x < w / 2 -> 0 <= y < h / 2 ->
     out 1%nat y x = cb (2 * x) 4 (block_sum px x y) /\
     out 2%nat y x = cr (2 * x) 4 (block_sum px x y)) /\
  (i_pf dst = Nv12 -> forall x y, 0 <= x < w / 2 -> 0 <= y < h / 2 ->
     out 1%nat y (2 * x) = cb (2 * x) 4 (block_sum px x y) /\
     out 1%nat y (2 * x + 1) = cr (2 * x) 4 (block_sum px x y)).
Proof.
  intros HS Rs Rd A cb cr out px. destruct (success_valid _ _ _ _ _ _ _ _ _ HS) as (_ & (_ & _ & Zd) & _).
  destruct (success_conv _ _ _ _ _ _ _ _ _ HS) as [_ HC]. split; [|split; [|split]].
  - intros x y Hx Hy. unfold out. rewrite (result_luma _ src dst w h sb db (dsts m') HC x y Rs Rd Hx Hy), cols_luma. reflexivity.
  - intros E x y Hx Hy. exact (result_chroma_444 _ src dst w h sb db (dsts m') HC x y Rs E Hx Hy).
  - intros E x y Hx Hy. exact (result_chroma_420 _ src dst w h sb db (dsts m') HC x y Rs E Hx Hy).
  - intros E x y Hx Hy. rewrite E in Zd.
    exact (result_chroma_nv12 _ src dst w h sb db (dsts m') HC x y Rs E (proj1 Zd) Hx Hy).
Qed.

Lemma c14_exact set T w h src dst sb db m' : successful_call (converters set) T w h src dst sb db m' -> set <> Neon ->
  is_rgb (i_pf src) = true -> is_rgb (i_pf dst) = false ->
  let out p := sample (dsts m') (plane_of dst w h p) in
  let px := pixel src w h sb in
  (forall x y, 0 <= x < w -> 0 <= y < h -> out 0%nat y x = luma (i_cs dst) (px x y)) /\
  (i_pf dst = I444 -> forall x y, 0 <= x < w -> 0 <= y < h ->
     out 1%nat y x = blue_diff (i_cs dst) 1 (px x y) /\ out 2%nat y x = red_diff (i_cs dst) 1 (px x y)) /\
  (i_pf dst = I420 -> forall x y, 0 <= x < w / 2 -> 0 <= y < h / 2 ->
     out 1%nat y x = blue_diff (i_cs dst) 4 (block_sum px x y) /\
     out 2%nat y x = red_diff (i_cs dst) 4 (block_sum px x y)) /\
  (i_pf dst = Nv12 -> forall x y, 0 <= x < w / 2 -> 0 <= y < h / 2 ->
     out 1%nat y (2 * x) = blue_diff (i_cs dst) 4 (block_sum px x y) /\
     out 1%nat y (2 * x + 1) = red_diff (i_cs dst) 4 (block_sum px x y)).
Proof.
  intros HS HN Rs Rd out px. destruct (c14 set T w h src dst sb db m' HS Rs Rd) as (L & C1 & C2 & C3).
  assert (CH : forall x, ar_cb (set_cols set (i_pf src) (i_pf dst) w x) = blue_diff /\
                         ar_cr (set_cols set (i_pf src) (i_pf dst) w x) = red_diff) by (intros; apply cols_chroma; auto).
  split; [exact L|]. split; [|split]; intros E x y Hx Hy.
  - destruct (C1 E x y Hx Hy) as [A B]. destruct (CH x) as [H1 H2]. rewrite H1 in A. rewrite H2 in B. auto.
  - destruct (C2 E x y Hx Hy) as [A B]. destruct (CH (2 * x)) as [H1 H2]. rewrite H1 in A. rewrite H2 in B. auto.
  - destruct (C3 E x y Hx Hy) as [A B]. destruct (CH (2 * x)) as [H1 H2]. rewrite H1 in A. rewrite H2 in B. auto.
Qed.

Lemma c14_neon T w h src dst sb db m' : successful_call (converters Neon) T w h src dst sb db m' ->
  is_rgb (i_pf src) = true -> is_rgb (i_pf dst) = false ->
  let cb x := if x <? 8 * (w / 8) then blue_diff_up (i_cs dst) else blue_diff (i_cs dst) in
  let cr x := if x <? 8 * (w / 8) then red_diff_up (i_cs dst) else red_diff (i_cs dst) in
  let out p := sample (dsts m') (plane_of dst w h p) in
  let px := pixel src w h sb in
  (forall x y, 0 <= x < w -> 0 <= y < h -> out 0%nat y x = luma (i_cs dst) (px x y)) /\
  (i_pf dst = I444 -> forall x y, 0 <= x < w -> 0 <= y < h ->
     out 1%nat y x = cb x 1 (px x y) /\ out 2%nat y x = cr x 1 (px x y)) /\
  (i_pf dst = I420 -> forall x y, 0 <= x < w / 2 -> 0 <= y < h / 2 ->
     out 1%nat y x = cb (2 * x) 4 (block_sum px x y) /\
     out 2%nat y x = cr (2 * x) 4 (block_sum px x y)) /\
  (i_pf dst = Nv12 -> forall x y, 0 <= x < w / 2 -> 0 <= y < h / 2 ->
     out 1%nat y (2 * x) = cb (2 * x) 4 (block_sum px x y) /\
     out 1%nat y (2 * x + 1) = cr (2 * x) 4 (block_sum px x y)).
Proof.
  intros HS Rs Rd cb cr out px. destruct (c14 Neon T w h src dst sb db m' HS Rs Rd) as (L & C1 & C2 & C3).
  assert (CH : forall x, ar_cb (set_cols Neon (i_pf src) (i_pf dst) w x) (i_cs dst) = cb x /\
                         ar_cr (set_cols Neon (i_pf src) (i_pf dst) w x) (i_cs dst) = cr x).
  { intros x. destruct (cols_neon (i_pf src) (i_pf dst) w x Rs Rd) as [-> ->]. unfold cb, cr. destruct (x <? _); auto. }
  split; [exact L|]. split; [|split]; intros E x y Hx Hy.
  - destruct (C1 E x y Hx Hy) as [A B]. destruct (CH x) as [H1 H2]. rewrite H1 in A. rewrite H2 in B. auto.
  - destruct (C2 E x y Hx Hy) as [A B]. destruct (CH (2 * x)) as [H1 H2]. rewrite H1 in A. rewrite H2 in B. auto.
  - destruct (C3 E x y Hx Hy) as [A B]. destruct (CH (2 * x)) as [H1 H2]. rewrite H1 in A. rewrite H2 in B. auto.
Qed.

Lemma c15 set T w h src dst sb db m' : successful_call (converters set) T w h src dst sb db m' ->
  is_rgb (i_pf src) = false -> is_rgb (i_pf dst) = true ->
  forall x y, 0 <= x < w -> 0 <= y < h ->
  pixel dst w h (dsts m') x y =
  let '(l, cb, cr) := pixel src w h sb x y in
  if x <? vector_part set (i_pf src) (i_pf dst) w then ycc_to_rgb_wrap (i_cs src) l cb cr
  else ycc_to_rgb (i_cs src) l cb cr.
Proof.
  intros HS Rs Rd x y Hx Hy. destruct (success_conv _ _ _ _ _ _ _ _ _ HS) as [_ HC].
  rewrite (result_pixel _ src dst w h sb db (dsts m') HC x y Rd Hx Hy).
  unfold source_rgb, pixel. rewrite Rs. destruct (ycc_pixel _ _ _ _ _) as [[l cb] cr].
  rewrite cols_rgb by (auto; lia). destruct (x <? _); reflexivity.
Qed.

Lemma c20_opaque set T w h src dst sb db m' : successful_call (converters set) T w h src dst sb db m' ->
  i_pf dst = Bgra \/ i_pf dst = Rgba ->
  forall x y, 0 <= x < w -> 0 <= y < h -> sample (dsts m') (plane_of dst w h 0) y (4 * x + 3) = 255.
Proof.
  intros HS Ed x y Hx Hy. destruct (success_conv _ _ _ _ _ _ _ _ _ HS) as [_ HC].
  exact (result_alpha _ src dst w h sb db (dsts m') HC x y Ed Hx Hy).
Qed.

Lemma c20_ignored set T T' w h src src' dst sb sb' db m1 m2 :
  successful_call (converters set) T w h src dst sb db m1 ->
  successful_call (converters set) T' w h src' dst sb' db m2 ->
  i_pf src = i_pf src' -> i_cs src = i_cs src' ->
  (forall x y, 0 <= x < w -> 0 <= y < h -> pixel src w h sb x y = pixel src' w h sb' x y) ->
  dsts m1 = dsts m2.
Proof.
  intros H1 H2 E1 E2 HP. destruct (success_conv _ _ _ _ _ _ _ _ _ H1) as [_ C1].
  destruct (success_conv _ _ _ _ _ _ _ _ _ H2) as [_ C2]. rewrite <- E1 in C2.
  destruct (success_valid _ _ _ _ _ _ _ _ _ H1) as (_ & (_ & _ & Zd) & _).
  eapply converted_same; eauto. intros p g y j Hg Hy Hj. eapply expected_local; eauto.
  intros. apply source_rgb_pixel; auto.
Qed.

Lemma c21 set T w h src dst sb db m' : successful_call (converters set) T w h src dst sb db m' ->
  is_rgb (i_pf src) = true -> is_rgb (i_pf dst) = true ->
  forall x y, 0 <= x < w -> 0 <= y < h -> pixel dst w h (dsts m') x y = pixel src w h sb x y.
Proof.
  intros HS Rs Rd x y Hx Hy. destruct (success_conv _ _ _ _ _ _ _ _ _ HS) as [_ HC].
  rewrite (result_pixel _ src dst w h sb db (dsts m') HC x y Rd Hx Hy).
  unfold source_rgb, pixel. rewrite Rs. reflexivity.
Qed.

Lemma c21_round_trip set set' T T' w h src mid dst sb mb db m1 m2 :
  successful_call (converters set) T w h src mid sb mb m1 ->
  successful_call (converters set') T' w h mid dst (dsts m1) db m2 ->
  is_rgb (i_pf src) = true -> is_rgb (i_pf mid) = true -> is_rgb (i_pf dst) = true ->
  forall x y, 0 <= x < w -> 0 <= y < h -> pixel dst w h (dsts m2) x y = pixel src w h sb x y.
Proof.
  intros H1 H2 Rs Rm Rd x y Hx Hy. rewrite (c21 _ _ _ _ _ _ _ _ _ H2); auto. eapply c21; eauto.
Qed.

Lemma c22 set T w h src dst sb db m' : successful_call (converters set) T w h src dst sb db m' ->
  srcs m' = sb /\ map (@length Z) (dsts m') = map (@length Z) db /\
  (forall n a, 0 <= a < buf_len db n -> ~ in_image dst w h n a ->
     nth (Z.to_nat a) (nth n (dsts m') []) 0 = nth (Z.to_nat a) (nth n db []) 0).
Proof. intros HS. destruct (success_conv _ _ _ _ _ _ _ _ _ HS) as [E (L & _ & F)]. auto. Qed.

Lemma c23 set T T' w h src src' dst dst' sb sb' db db' m1 m2 :
  successful_call (converters set) T w h src dst sb db m1 ->
  successful_call (converters set) T' w h src' dst' sb' db' m2 ->
  i_pf src = i_pf src' -> i_cs src = i_cs src' -> i_pf dst = i_pf dst' -> i_cs dst = i_cs dst' ->
  forall p y j, (p < length (image_planes dst w h))%nat -> 0 <= y < g_rows (plane_of dst w h p) ->
  0 <= j < g_row (plane_of dst w h p) ->
  (forall px py, 0 <= px < w -> 0 <= py < h -> covers (i_pf dst) p y j px py ->
     pixel src w h sb px py = pixel src' w h sb' px py) ->
  sample (dsts m1) (plane_of dst w h p) y j = sample (dsts m2) (plane_of dst' w h p) y j.
Proof.
  intros H1 H2 E1 E2 E3 E4 p y j Hp Hy Hj HP. destruct (success_conv _ _ _ _ _ _ _ _ _ H1) as [_ C1].
  destruct (success_conv _ _ _ _ _ _ _ _ _ H2) as [_ C2]. rewrite <- E1, <- E3 in C2.
  destruct (success_valid _ _ _ _ _ _ _ _ _ H1) as (_ & (_ & _ & Zd) & _).
  unfold plane_of, nth_plane in *.
  assert (L : length (image_planes dst w h) = length (image_planes dst' w h)).
  { unfold image_planes, planes. rewrite <- E3. destruct (i_pf dst); try reflexivity.
    destruct (i_planes dst =? 1), (i_planes dst' =? 1); reflexivity. }
  eapply (converted_samples _ src src' dst dst' w h sb sb' db db'); eauto; apply nth_error_nth'; lia.
Qed.

Lemma c23_layout set T T' w h src src' dst dst' sb sb' db db' m1 m2 :
  successful_call (converters set) T w h src dst sb db m1 ->
  successful_call (converters set) T' w h src' dst' sb' db' m2 ->
  i_pf src = i_pf src' -> i_cs src = i_cs src' -> i_pf dst = i_pf dst' -> i_cs dst = i_cs dst' ->
  (forall x y, 0 <= x < w -> 0 <= y < h -> pixel src w h sb x y = pixel src' w h sb' x y) ->
  forall p y j, (p < length (image_planes dst w h))%nat -> 0 <= y < g_rows (plane_of dst w h p) ->
  0 <= j < g_row (plane_of dst w h p) ->
  sample (dsts m1) (plane_of dst w h p) y j = sample (dsts m2) (plane_of dst' w h p) y j.
Proof. intros. eapply c23; eauto. Qed.

Lemma c24_i420 set T T' w h src nv i420 sb nb ib m1 m2 :
  successful_call (converters set) T w h src nv sb nb m1 ->
  successful_call (converters set) T' w h src i420 sb ib m2 ->
  is_rgb (i_pf src) = true -> i_pf nv = Nv12 -> i_pf i420 = I420 -> i_cs nv = i_cs i420 ->
  (forall x y, 0 <= x < w -> 0 <= y < h ->
     sample (dsts m1) (plane_of nv w h 0) y x = sample (dsts m2) (plane_of i420 w h 0) y x) /\
  (forall x y, 0 <= x < w / 2 -> 0 <= y < h / 2 ->
     sample (dsts m1) (plane_of nv w h 1) y (2 * x) = sample (dsts m2) (plane_of i420 w h 1) y x /\
     sample (dsts m1) (plane_of nv w h 1) y (2 * x + 1) = sample (dsts m2) (plane_of i420 w h 2) y x).
Proof.
  intros H1 H2 Rs En Ei Ec.
  destruct (c14 _ _ _ _ _ _ _ _ _ H1 Rs ltac:(rewrite En; reflexivity)) as (L1 & _ & _ & N).
  destruct (c14 _ _ _ _ _ _ _ _ _ H2 Rs ltac:(rewrite Ei; reflexivity)) as (L2 & _ & I & _).
  cbv zeta in *.
  assert (EA : set_cols set (i_pf src) Nv12 w = set_cols set (i_pf src) I420 w).
  { unfold set_cols, vector_part. rewrite Rs. reflexivity. }
  split.
  - intros x y Hx Hy. rewrite L1, L2, Ec; auto.
  - intros x y Hx Hy. destruct (N En x y Hx Hy) as [-> ->]. destruct (I Ei x y Hx Hy) as [-> ->].
    rewrite Ec, En, Ei, EA. auto.
Qed.

(** ** Saturation on SSE2 and AVX2 *)

Lemma wrap16_id x : -32768 <= x < 32768 -> wrap16 x = x.
Proof. intros H. unfold wrap16. rewrite Z.mod_small; lia. Qed.

Lemma no_wrap cs l cb cr : 0 <= l <= 255 -> 0 <= cb <= 255 -> 0 <= cr <= 255 -> blue_fits cs (l, cb, cr) ->
  ycc_to_rgb_wrap cs l cb cr = ycc_to_rgb cs l cb cr.
Proof.
  intros Hl Hb Hr. unfold blue_fits, ycc_to_rgb_wrap, ycc_to_rgb, rgb64.
  destruct cs; cbn [rgb_coefs snd]; intros H; rewrite !wrap16_id by lia; reflexivity.
Qed.

Lemma fits_full_range cs l cb cr : cs = Bt601FR \/ cs = Bt709FR ->
  0 <= l <= 255 -> 0 <= cb <= 255 -> blue_fits cs (l, cb, cr).
Proof. intros [-> | ->] Hl Hb; unfold blue_fits, rgb64; cbn [rgb_coefs snd]; lia. Qed.

Lemma fits_nominal cs l cb cr : 0 <= l <= 235 -> 0 <= cb <= 240 -> blue_fits cs (l, cb, cr).
Proof. intros Hl Hb; unfold blue_fits, rgb64; destruct cs; cbn [rgb_coefs snd]; lia. Qed.

(** Samples of well-formed images are bytes. *)
Lemma sample_byte lim bufs g y j : buffers_ok lim bufs -> 0 <= sample bufs g y j <= 255.
Proof.
  intros HB. unfold sample. destruct (nth_in_or_default (g_buf g) bufs []) as [Hi|Hi].
  - unfold buffers_ok in HB. rewrite Forall_forall in HB. destruct (HB _ Hi) as [_ F].
    rewrite Forall_forall in F.
    destruct (nth_in_or_default (Z.to_nat (g_base g + y * g_stride g + j)) (nth (g_buf g) bufs []) 0) as [H|H];
      [apply F; exact H|rewrite H; lia].
  - rewrite Hi. destruct (Z.to_nat _); cbn; lia.
Qed.

Lemma pixel_bytes lim im w h bufs x y : buffers_ok lim bufs ->
  let '(a, b, c) := pixel im w h bufs x y in 0 <= a <= 255 /\ 0 <= b <= 255 /\ 0 <= c <= 255.
Proof.
  intros HB. unfold pixel, rgb_pixel, ycc_pixel.
  destruct (i_pf im); cbn [is_rgb component_offsets]; repeat split; eapply sample_byte; eauto.
Qed.

Lemma success_bytes impl T w h src dst sb db m' x y : successful_call impl T w h src dst sb db m' ->
  let '(a, b, c) := pixel src w h sb x y in 0 <= a <= 255 /\ 0 <= b <= 255 /\ 0 <= c <= 255.
Proof.
  intros (_ & (_ & _ & _ & _ & _ & _ & HB & _) & _). eapply pixel_bytes; eauto.
Qed.

(** Where no pixel wraps. *)
Definition saturates (set : instruction_set) (cs : color_space) (p : Z * Z * Z) : Prop :=
  set = X86 \/ set = Neon \/ blue_fits cs p.

Lemma c15_exact set T w h src dst sb db m' : successful_call (converters set) T w h src dst sb db m' ->
  is_rgb (i_pf src) = false -> is_rgb (i_pf dst) = true ->
  forall x y, 0 <= x < w -> 0 <= y < h -> saturates set (i_cs src) (pixel src w h sb x y) ->
  pixel dst w h (dsts m') x y =
  let '(l, cb, cr) := pixel src w h sb x y in ycc_to_rgb (i_cs src) l cb cr.
Proof.
  intros HS Rs Rd x y Hx Hy HF. rewrite (c15 _ _ _ _ _ _ _ _ _ HS Rs Rd x y Hx Hy).
  pose proof (success_bytes _ _ _ _ _ _ _ _ _ x y HS) as HB. destruct (pixel src w h sb x y) as [[l cb] cr].
  destruct (Z.ltb_spec x (vector_part set (i_pf src) (i_pf dst) w)) as [Hv|Hv]; [|reflexivity].
  destruct HF as [->|[->|HF]].
  - unfold vector_part in Hv. rewrite ?Rs in Hv. lia.
  - unfold vector_part in Hv. rewrite ?Rs in Hv. lia.
  - apply no_wrap; tauto.
Qed.

Lemma c15_nominal set T w h src dst sb db m' : successful_call (converters set) T w h src dst sb db m' ->
  is_rgb (i_pf src) = false -> is_rgb (i_pf dst) = true ->
  forall x y, 0 <= x < w -> 0 <= y < h ->
  forall l cb cr, pixel src w h sb x y = (l, cb, cr) ->
  set = X86 \/ set = Neon \/ i_cs src = Bt601FR \/ i_cs src = Bt709FR \/ (l <= 235 /\ cb <= 240) ->
  pixel dst w h (dsts m') x y = ycc_to_rgb (i_cs src) l cb cr.
Proof.
  intros HS Rs Rd x y Hx Hy l cb cr E HF. pose proof (success_bytes _ _ _ _ _ _ _ _ _ x y HS) as HB.
  pose proof (c15_exact set T w h src dst sb db m' HS Rs Rd x y Hx Hy) as H. rewrite E in *. apply H.
  unfold saturates. destruct HF as [HF|[HF|[HF|[HF|HF]]]]; auto; do 2 right.
  - apply fits_full_range; tauto.
  - apply fits_full_range; tauto.
  - apply fits_nominal; lia.
Qed.

Lemma c24_source set T T' w h s1 s2 dst dst' sb1 sb2 db db' m1 m2 :
  successful_call (converters set) T w h s1 dst sb1 db m1 ->
  successful_call (converters set) T' w h s2 dst' sb2 db' m2 ->
  i_pf s1 = Nv12 \/ i_pf s1 = I420 -> i_pf s2 = Nv12 \/ i_pf s2 = I420 -> i_cs s1 = i_cs s2 ->
  i_pf dst = i_pf dst' ->
  forall x y, 0 <= x < w -> 0 <= y < h -> pixel s1 w h sb1 x y = pixel s2 w h sb2 x y ->
  pixel dst w h (dsts m1) x y = pixel dst' w h (dsts m2) x y.
Proof.
  intros H1 H2 R1 R2 Ec Ed x y Hx Hy HP.
  assert (D : supported (i_pf s1) (i_pf dst) = true -> is_rgb (i_pf dst) = true)
    by (destruct R1 as [-> | ->], (i_pf dst); intros HX; try discriminate HX; reflexivity).
  destruct (success_valid _ _ _ _ _ _ _ _ _ H1) as (_ & _ & S1).
  destruct (success_valid _ _ _ _ _ _ _ _ _ H2) as (_ & _ & S2).
  specialize (D S1). assert (D' : is_rgb (i_pf dst') = true) by (rewrite <- Ed; exact D).
  rewrite (c15 _ _ _ _ _ _ _ _ _ H1), (c15 _ _ _ _ _ _ _ _ _ H2), HP, Ec; auto;
    try (destruct R1 as [-> | ->]; reflexivity); try (destruct R2 as [-> | ->]; reflexivity).
  assert (E : vector_part set (i_pf s1) (i_pf dst) w = vector_part set (i_pf s2) (i_pf dst') w).
  { rewrite <- Ed in *. destruct R1 as [E1|E1], R2 as [E2|E2]; rewrite E1, E2 in *; destruct set, (i_pf dst); try discriminate; reflexivity. }
  rewrite E. reflexivity.
Qed.

(** Any two formats, where no pixel wraps. *)
Lemma c24_fits set set' T T' w h s1 s2 dst dst' sb1 sb2 db db' m1 m2 :
  successful_call (converters set) T w h s1 dst sb1 db m1 ->
  successful_call (converters set') T' w h s2 dst' sb2 db' m2 ->
  is_rgb (i_pf s1) = false -> is_rgb (i_pf s2) = false -> i_cs s1 = i_cs s2 ->
  is_rgb (i_pf dst) = true -> is_rgb (i_pf dst') = true ->
  forall x y, 0 <= x < w -> 0 <= y < h -> pixel s1 w h sb1 x y = pixel s2 w h sb2 x y ->
  saturates set (i_cs s1) (pixel s1 w h sb1 x y) -> saturates set' (i_cs s1) (pixel s1 w h sb1 x y) ->
  pixel dst w h (dsts m1) x y = pixel dst' w h (dsts m2) x y.
Proof.
  intros H1 H2 R1 R2 Ec Rd Rd' x y Hx Hy HP F1 F2.
  rewrite (c15_exact _ _ _ _ _ _ _ _ _ H1), (c15_exact _ _ _ _ _ _ _ _ _ H2); auto; rewrite <- ?Ec, <- ?HP; auto.
Qed.

(** ** Instruction sets against each other *)

Lemma sets_expected set set' src dst w h sb p g y j lim : buffers_ok lim sb -> valid_size (i_pf dst) w h ->
  nth_error (image_planes dst w h) p = Some g -> 0 <= y < g_rows g -> 0 <= j < g_row g ->
  (is_rgb (i_pf src) = true -> is_rgb (i_pf dst) = false -> set <> Neon /\ set' <> Neon) ->
  (is_rgb (i_pf src) = false -> is_rgb (i_pf dst) = true /\
     forall x y, 0 <= x < w -> 0 <= y < h ->
     saturates set (i_cs src) (pixel src w h sb x y) /\ saturates set' (i_cs src) (pixel src w h sb x y)) ->
  expected (set_cols set (i_pf src) (i_pf dst) w) src dst w h sb p y j =
  expected (set_cols set' (i_pf src) (i_pf dst) w) src dst w h sb p y j.
Proof.
  intros HB Vz Eg Hy Hj HN HF.
  assert (SR : forall px py, 0 <= px < w -> 0 <= py < h ->
    source_rgb (set_cols set (i_pf src) (i_pf dst) w) src w h sb px py =
    source_rgb (set_cols set' (i_pf src) (i_pf dst) w) src w h sb px py).
  { intros px py Hpx Hpy. unfold source_rgb. destruct (is_rgb (i_pf src)) eqn:R; [reflexivity|].
    destruct (HF eq_refl) as [Rd HF']. specialize (HF' px py Hpx Hpy).
    pose proof (pixel_bytes lim src w h sb px py HB) as PB. unfold pixel in HF', PB. rewrite R in HF', PB.
    destruct (ycc_pixel _ _ _ _ _) as [[l cb] cr]. rewrite !cols_rgb by (auto; lia).
    assert (K : forall s, saturates s (i_cs src) (l, cb, cr) ->
       (if px <? vector_part s (i_pf src) (i_pf dst) w then ycc_to_rgb_wrap else ycc_to_rgb) (i_cs src) l cb cr =
       ycc_to_rgb (i_cs src) l cb cr).
    { intros s Hs. destruct (Z.ltb_spec px (vector_part s (i_pf src) (i_pf dst) w)) as [Hv|Hv]; [|reflexivity].
      destruct Hs as [->|[->|Hs]]; try (unfold vector_part in Hv; rewrite ?R in Hv; lia).
      apply no_wrap; tauto. }
    rewrite !K by tauto. reflexivity. }
  destruct (is_rgb (i_pf dst)) eqn:Rd.
  - unfold expected. pose proof Eg as Eg'. unfold image_planes, planes in Eg'.
    assert (Hg : p = 0%nat /\ g_rows g = h /\ g_row g = bytes_per_pixel (i_pf dst) * w).
    { destruct (i_pf dst); try discriminate; destruct p as [|[|p]]; try discriminate; injection Eg' as <-; auto. }
    destruct Hg as (-> & Hh & Hr). rewrite Hr in Hj. rewrite Hh in Hy.
    assert (0 <= j / bytes_per_pixel (i_pf dst) < w).
    { assert (0 < bytes_per_pixel (i_pf dst)) by (destruct (i_pf dst); try discriminate; cbn; lia).
      split; [apply Z.div_pos; lia|apply Z.div_lt_upper_bound; lia]. }
    destruct (i_pf dst) eqn:Ed; try discriminate; rewrite SR; auto.
  - destruct (is_rgb (i_pf src)) eqn:Rs; [|destruct (HF eq_refl); congruence].
    destruct (HN eq_refl eq_refl) as [N1 N2]. unfold expected.
    assert (RG : forall A, source_rgb A src w h sb = fun x y => rgb_pixel (i_pf src) (image_planes src w h) sb x y).
    { intros A. unfold source_rgb. rewrite Rs. reflexivity. }
    rewrite !RG.
    destruct (i_pf dst); try discriminate; destruct p as [|[|p]];
      rewrite ?cols_luma, ?(fun d x => proj1 (cols_chroma set (i_pf src) d w x N1)),
        ?(fun d x => proj2 (cols_chroma set (i_pf src) d w x N1)),
        ?(fun d x => proj1 (cols_chroma set' (i_pf src) d w x N2)),
        ?(fun d x => proj2 (cols_chroma set' (i_pf src) d w x N2)); reflexivity.
Qed.

Lemma sets_same set set' T T' w h src dst sb db m1 m2 :
  successful_call (converters set) T w h src dst sb db m1 ->
  successful_call (converters set') T' w h src dst sb db m2 ->
  (is_rgb (i_pf src) = true -> is_rgb (i_pf dst) = false -> set <> Neon /\ set' <> Neon) ->
  (is_rgb (i_pf src) = false ->
     forall x y, 0 <= x < w -> 0 <= y < h ->
     saturates set (i_cs src) (pixel src w h sb x y) /\ saturates set' (i_cs src) (pixel src w h sb x y)) ->
  m1 = m2.
Proof.
  intros H1 H2 HN HF. destruct (success_conv _ _ _ _ _ _ _ _ _ H1) as [S1 C1].
  destruct (success_conv _ _ _ _ _ _ _ _ _ H2) as [S2 C2].
  destruct (success_valid _ _ _ _ _ _ _ _ _ H1) as (_ & (_ & _ & Zd) & Hs).
  assert (E : dsts m1 = dsts m2).
  { eapply converted_same; eauto. intros p g y j Hg Hy Hj.
    destruct H1 as (_ & (_ & _ & _ & _ & _ & _ & HB & _) & _).
    eapply sets_expected; eauto. intros R. split; [|auto].
    destruct (i_pf src), (i_pf dst); try discriminate; reflexivity. }
  destruct m1 as [a b], m2 as [c d]. cbn [srcs dsts] in *. congruence.
Qed.

Lemma c25 set set' T T' w h src dst sb db m1 m2 :
  successful_call (converters set) T w h src dst sb db m1 ->
  successful_call (converters set') T' w h src dst sb db m2 ->
  is_rgb (i_pf src) = true -> set <> Neon -> set' <> Neon -> m1 = m2.
Proof. intros H1 H2 Rs N1 N2. eapply sets_same; eauto. congruence. Qed.

Lemma c27 set set' T T' w h src dst sb db m1 m2 :
  successful_call (converters set) T w h src dst sb db m1 ->
  successful_call (converters set') T' w h src dst sb db m2 ->
  is_rgb (i_pf src) = true -> is_rgb (i_pf dst) = true -> m1 = m2.
Proof. intros H1 H2 Rs Rd. eapply sets_same; eauto; congruence. Qed.

Lemma c26 set set' T T' w h src dst sb db m1 m2 :
  successful_call (converters set) T w h src dst sb db m1 ->
  successful_call (converters set') T' w h src dst sb db m2 ->
  is_rgb (i_pf src) = false ->
  (set = X86 \/ set = Neon) /\ (set' = X86 \/ set' = Neon) \/
  (forall x y, 0 <= x < w -> 0 <= y < h -> blue_fits (i_cs src) (pixel src w h sb x y)) -> m1 = m2.
Proof.
  intros H1 H2 Rs HF. eapply sets_same; eauto; try congruence.
  intros _ x y Hx Hy. unfold saturates. destruct HF as [HF|HF]; [tauto|]. specialize (HF x y Hx Hy). tauto.
Qed.

Lemma c26_nominal set set' T T' w h src dst sb db m1 m2 :
  successful_call (converters set) T w h src dst sb db m1 ->
  successful_call (converters set') T' w h src dst sb db m2 ->
  is_rgb (i_pf src) = false ->
  i_cs src = Bt601FR \/ i_cs src = Bt709FR \/
  (forall x y, 0 <= x < w -> 0 <= y < h -> let '(l, cb, _) := pixel src w h sb x y in l <= 235 /\ cb <= 240) -> m1 = m2.
Proof.
  intros H1 H2 Rs HF. eapply c26; eauto. right. intros x y Hx Hy.
  pose proof (success_bytes _ _ _ _ _ _ _ _ _ x y H1) as HB.
  destruct HF as [HF|[HF|HF]]; [..|specialize (HF x y Hx Hy)]; destruct (pixel src w h sb x y) as [[l cb] cr].
  - apply fits_full_range; tauto.
  - apply fits_full_range; tauto.
  - apply fits_nominal; lia.
Qed.

(** NEON differs from the others by the rounding of exact halves. *)
Lemma round_tie n d : 0 < d -> round_up n d = round_down n d \/ (round_up n d = round_down n d + 1 /\ (2 * n) mod (2 * d) = d).
Proof.
  intros Hd. unfold round_down, round_up.
  assert (E : 2 * (- n) + d = - (2 * n - d)) by lia. rewrite E.
  pose proof (Z.div_mod (2 * n + d) (2 * d) ltac:(lia)). pose proof (Z.mod_pos_bound (2 * n + d) (2 * d) ltac:(lia)).
  set (q := (2 * n + d) / (2 * d)) in *. set (r := (2 * n + d) mod (2 * d)) in *.
  destruct (Z.eq_dec r 0) as [Z0|Z0].
  - right. split.
    + assert (- (2 * n - d) / (2 * d) = - (q - 1)); [|lia]. symmetry. apply Z.div_unique with (r := 0); lia.
    + symmetry. apply Z.mod_unique with (q := q - 1); lia.
  - left. assert (- (2 * n - d) / (2 * d) = - q); [|lia]. symmetry. apply Z.div_unique with (r := 2 * d - r); lia.
Qed.

Lemma cols_cb_near set spf dpf w x cs n p : 0 < n ->
  let d := ar_cb (set_cols set spf dpf w x) cs n p - blue_diff cs n p in
  d = 0 \/ (d = 1 /\ tie (cb_weights cs) n p).
Proof.
  intros Hn d. unfold d, set_cols, left_cols.
  assert (K : ar_cb neon_arith cs n p - blue_diff cs n p = 0 \/
     ar_cb neon_arith cs n p - blue_diff cs n p = 1 /\ tie (cb_weights cs) n p).
  { cbn [neon_arith ar_cb]. unfold blue_diff_up, blue_diff, tie.
    destruct (round_tie (dot (cb_weights cs) p) (n * 65536) ltac:(lia)) as [H|[H1 H2]]; [left|right]; lia. }
  destruct set; [..|destruct (x <? _); [exact K|]]; try (destruct (x <? _)); left; cbn; lia.
Qed.
Lemma cols_cr_near set spf dpf w x cs n p : 0 < n ->
  let d := ar_cr (set_cols set spf dpf w x) cs n p - red_diff cs n p in
  d = 0 \/ (d = 1 /\ tie (cr_weights cs) n p).
Proof.
  intros Hn d. unfold d, set_cols, left_cols.
  assert (K : ar_cr neon_arith cs n p - red_diff cs n p = 0 \/
     ar_cr neon_arith cs n p - red_diff cs n p = 1 /\ tie (cr_weights cs) n p).
  { cbn [neon_arith ar_cr]. unfold red_diff_up, red_diff, tie.
    destruct (round_tie (dot (cr_weights cs) p) (n * 65536) ltac:(lia)) as [H|[H1 H2]]; [left|right]; lia. }
  destruct set; [..|destruct (x <? _); [exact K|]]; try (destruct (x <? _)); left; cbn; lia.
Qed.

Lemma c25_near set set' T T' w h src dst sb db m1 m2 :
  successful_call (converters set) T w h src dst sb db m1 ->
  successful_call (converters set') T' w h src dst sb db m2 ->
  is_rgb (i_pf src) = true -> is_rgb (i_pf dst) = false ->
  (forall x y, 0 <= x < w -> 0 <= y < h ->
     sample (dsts m1) (plane_of dst w h 0) y x = sample (dsts m2) (plane_of dst w h 0) y x) /\
  (forall p y j, (p < length (image_planes dst w h))%nat -> 0 <= y < g_rows (plane_of dst w h p) ->
     0 <= j < g_row (plane_of dst w h p) ->
     Z.abs (sample (dsts m1) (plane_of dst w h p) y j - sample (dsts m2) (plane_of dst w h p) y j) <= 1).
Proof.
  intros H1 H2 Rs Rd. split.
  - intros x y Hx Hy.
    rewrite (proj1 (c14 _ _ _ _ _ _ _ _ _ H1 Rs Rd)), (proj1 (c14 _ _ _ _ _ _ _ _ _ H2 Rs Rd)) by auto. reflexivity.
  - intros p y j Hp Hy Hj. destruct (success_conv _ _ _ _ _ _ _ _ _ H1) as [_ (_ & C1 & _)].
    destruct (success_conv _ _ _ _ _ _ _ _ _ H2) as [_ (_ & C2 & _)].
    assert (E : nth_error (image_planes dst w h) p = Some (plane_of dst w h p)).
    { unfold plane_of, nth_plane. apply nth_error_nth'. exact Hp. }
    rewrite (C1 p _ E y j Hy Hj), (C2 p _ E y j Hy Hj). clear C1 C2 E Hp Hy Hj.
    assert (RG : forall A, source_rgb A src w h sb = fun x y => rgb_pixel (i_pf src) (image_planes src w h) sb x y).
    { intros A. unfold source_rgb. rewrite Rs. reflexivity. }
    unfold expected. rewrite !RG.
    assert (KB : forall x n q, 0 < n -> Z.abs (ar_cb (set_cols set (i_pf src) (i_pf dst) w x) (i_cs dst) n q -
      ar_cb (set_cols set' (i_pf src) (i_pf dst) w x) (i_cs dst) n q) <= 1).
    { intros x n q Hn. pose proof (cols_cb_near set (i_pf src) (i_pf dst) w x (i_cs dst) n q Hn) as K1.
      pose proof (cols_cb_near set' (i_pf src) (i_pf dst) w x (i_cs dst) n q Hn) as K2. cbv zeta in *. lia. }
    assert (KR : forall x n q, 0 < n -> Z.abs (ar_cr (set_cols set (i_pf src) (i_pf dst) w x) (i_cs dst) n q -
      ar_cr (set_cols set' (i_pf src) (i_pf dst) w x) (i_cs dst) n q) <= 1).
    { intros x n q Hn. pose proof (cols_cr_near set (i_pf src) (i_pf dst) w x (i_cs dst) n q Hn) as K1.
      pose proof (cols_cr_near set' (i_pf src) (i_pf dst) w x (i_cs dst) n q Hn) as K2. cbv zeta in *. lia. }
    destruct (i_pf dst); try discriminate; destruct p as [|[|p]]; rewrite ?cols_luma; try lia;
      try (apply KB; lia); try (apply KR; lia);
      destruct (j mod 2 =? 0); try (apply KB; lia); try (apply KR; lia).
Qed.
