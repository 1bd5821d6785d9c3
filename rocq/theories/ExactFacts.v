(** A conversion succeeds exactly if the bytes it reads are in its buffers. *)
From Coq Require Import ZArith List Bool Lia ZifyBool ZifyNat.
Import ListNotations.
From Verif Require Import Base Fmt Common Scalar Wrappers LibFacts Vector CpuInfo Lib Sets Spec SimdSpec SetSpec ApiSpec Api
  ConvProofs ApiProofs ConvertProofs FinalProofs PadFacts PropFacts CApiFacts NeedFacts AlphaFacts SetProofs CallFacts.
Open Scope Z_scope.
Ltac Zify.zify_post_hook ::= Z.div_mod_to_equations.

Lemma supported_from_bgr dpf : supported Bgr dpf = true -> is_rgb dpf = false -> dpf = Nv12 \/ dpf = I420 \/ dpf = I444.
Proof. destruct dpf; cbn; intros; try discriminate; auto. Qed.

Lemma over_read_end set dpf w : set = CpuInfo.Sse2 \/ set = CpuInfo.Avx2 -> is_rgb dpf = false -> 0 < w ->
  0 < over_read set Bgr dpf w ->
  let v := fwd_vector_part (wave set) 3 w in
  0 < v /\ 3 * w + over_read set Bgr dpf w = 3 * (v - wave set) + register set.
Proof.
  intros Hs Hd Hw. unfold over_read, fwd_vector_part. rewrite Hd. change (3 =? 3) with true. cbv iota zeta.
  destruct Hs as [-> | ->]; cbn [wave register].
  - destruct (Z.leb_spec 12 w); lia.
  - destruct (Z.leb_spec 24 w); lia.
Qed.

Section Calls.
Variable set : instruction_set.
Variable T : target.
Hypothesis HT : is_target T.
Variables (w h : Z) (src dst : image) (sb : list (list Z)).
Hypothesis (W0 : 0 < w) (H0 : 0 < h).
Hypothesis Vs : valid_image src w h.
Hypothesis Vd : valid_image dst w h.
Hypothesis Hsup : supported (i_pf src) (i_pf dst) = true.
Hypothesis Ss : strides_below (usz T) src.
Hypothesis Bs : buffers_ok (isize_max T) sb.
Hypothesis Is : image_in 0 src w h sb.

Lemma call_needs (ss : option (arr Z)) slices ds dd m m' :
  option_map adata ss = i_strides src ->
  (exists n, forall x, nth_error (adata slices) 0 = Some x -> x = Slice (Src 0) 0 n) ->
  srcs m = sb ->
  call_converter (converters set) w h src dst ss slices ds dd T m = Ok Success m' ->
  room set src dst w h sb.
Proof.
  intros Es Eb Hm E. unfold room.
  pose proof (over_read_nonneg set (i_pf src) (i_pf dst) w) as N0.
  destruct (Z.eq_dec (over_read set (i_pf src) (i_pf dst) w) 0) as [Z0|Z0]; [rewrite Z0; exact Is|].
  destruct (over_read_pos set (i_pf src) (i_pf dst) w ltac:(lia)) as (Hset & Ps & Pd).
  pose proof Hsup as Hsup'. rewrite Ps in Hsup'.
  unfold image_in, image_planes in Is |- *. rewrite Ps in *. cbn [planes bytes_per_pixel] in *.
  pose proof (Forall_inv Is) as I1. constructor; [|constructor].
  unfold plane_in in I1 |- *. cbn [g_base g_rows g_stride g_row g_buf] in *.
  set (stride := eff_stride (i_strides src) 0 (3 * w)) in *.
  destruct (over_read_end set (i_pf dst) w Hset Pd W0 ltac:(lia)) as [Hv Hend].
  set (v := fwd_vector_part (wave set) 3 w) in *. cbv zeta in Hv, Hend.
  assert (Hst : 0 <= stride).
  { unfold strides_below in Ss. unfold stride, eff_stride. destruct (i_strides src) as [l|]; [|lia].
    destruct (nth_in_or_default 0%nat l 0) as [Hi|Hi].
    - rewrite Forall_forall in Ss. specialize (Ss _ Hi). destruct (nth 0 l 0 =? 0); lia.
    - rewrite Hi. change (0 =? 0) with true. cbv iota. lia. }
  assert (Hlen : buf_len sb 0 < usz T).
  { destruct (isize_usz T HT) as (? & ? & ?). pose proof (buffers_len (isize_max T) sb 0%nat ltac:(lia) Bs). lia. }
  (unfold call_converter, bind, ret, conv_of in E; cbn [run] in E). rewrite Ps, Pd in E. cbn [is_rgb] in E.
  destruct (converters set _ w h _ _ slices _ _ dd T m) as [b m1|f] eqn:E1; [|discriminate].
  destruct b; [|discriminate].
  set (s0 := match i_strides src with Some l => nth 0 l 0 | None => 0 end).
  assert (Hstr : stride = compute_stride s0 (3 * w)).
  { unfold stride, eff_stride, compute_stride, s0. destruct (i_strides src); reflexivity. }
  destruct Eb as (n & Eb).
  pose proof (converter_needs T sb set (i_pf dst) (i_cs dst) w h (u32 (i_planes src - 1)) (strides_or_default ss) slices
    (u32 (i_planes dst - 1)) (strides_or_default ds) dd s0 (Slice (Src 0) 0 n) 0%nat Hset (supported_from_bgr _ Hsup' Pd)) as C.
  cbv zeta in C. rewrite <- Hstr in C. fold v in C.
  assert (Hm2 : i_pf dst <> I444 -> h mod 2 = 0).
  { destruct Vd as (_ & _ & Vz). destruct (supported_from_bgr _ Hsup' Pd) as [Q|[Q|Q]]; rewrite Q in *; cbn [valid_size] in Vz; intros; [lia|lia|congruence]. }
  assert (Es' : forall x, nth_error (adata (strides_or_default ss)) 0 = Some x -> x = s0).
  { unfold s0. rewrite <- Es. destruct ss as [a|]; cbn [option_map strides_or_default].
    - destruct (adata a); cbn; congruence.
    - vm_compute. congruence. }
  specialize (C Hm2 Es' Eb eq_refl eq_refl Hst Hv W0 H0 ltac:(lia) m true m1 Hm E1 eq_refl).
  unfold vector_end in C. unfold buf_len, zlen in *. lia.
Qed.
End Calls.

(** A call that returns [Ok(())] had the bytes it read. *)
Lemma success_room set T w h src dst sb db m : is_target T -> well_formed (usz T) w h src dst sb db ->
  0 < w -> 0 < h -> image_in 0 src w h sb ->
  convert (converters set) T w h src dst sb db = Ok Success m -> room set src dst w h sb.
Proof.
  intros HT HW W0 H0 Is E. destruct (format_planes_u32 _ _ _ _ _ _ _ HW) as [Us Ud].
  destruct HW as (_ & _ & _ & _ & Ss & _ & Bs & _). unfold convert in E.
  destruct (convert_image_cases (converters set) w h src (option_map arr_of (i_strides src)) (arr_of (rust_slices Src sb))
              dst (option_map arr_of (i_strides dst)) (arr_of (rust_slices Dst db)) T (Mem sb db) Us Ud)
    as [[_ F]|[(_ & _ & _ & F)|(Vs & Vd & Hs & F)]]; [congruence|congruence|]. rewrite F in E.
  eapply call_needs; [exact HT|exact W0|exact H0|exact Vd|exact Hs|exact Ss|exact Bs|exact Is| | | |exact E].
  - destruct (i_strides src); reflexivity.
  - exists (zlen (nth 0 sb [])). intros x. destruct sb; cbn; congruence.
  - reflexivity.
Qed.

Lemma c_success_room set T w h src dst sb db error error' m : is_target T -> well_formed (usz T) w h src dst sb db ->
  0 < w -> 0 < h -> image_in 0 src w h sb -> enough_planes src sb -> enough_planes dst db ->
  c_convert (converters set) T w h src dst sb db error = Ok (C_Ok, error') m -> room set src dst w h sb.
Proof.
  intros HT HW W0 H0 Is En1 En2 E. destruct (format_planes_u32 _ _ _ _ _ _ _ HW) as [Us Ud].
  destruct HW as (W & H & _ & _ & Ss & Sd & Bs & Bd).
  rewrite (c_convert_eq T) in E; try assumption; [|apply En1|apply En2].
  destruct (convert_image_cases (converters set) w h src (option_map (Arr (isize_max T)) (i_strides src)) (c_slices T Src (i_planes src))
              dst (option_map (Arr (isize_max T)) (i_strides dst)) (c_slices T Dst (i_planes dst)) T (Mem sb db) Us Ud)
    as [[_ F]|[(_ & _ & _ & F)|(Vs & Vd & Hs & F)]]; cbv zeta in F; rewrite F in E; [destruct error; discriminate|destruct error; discriminate|].
  destruct (call_converter _ _ _ _ _ _ _ _ _ T (Mem sb db)) as [o m1|f] eqn:E1; [|discriminate].
  assert (o = Success) as -> by (destruct o; [reflexivity|destruct error; discriminate]).
  eapply call_needs; [exact HT|exact W0|exact H0|exact Vd|exact Hs|exact Ss|exact Bs|exact Is| | | |exact E1].
  - destruct (i_strides src); reflexivity.
  - exists (isize_max T). intros x. unfold c_slices. cbn [adata].
    destruct (Z.to_nat (i_planes src)); cbn [seq map nth_error]; congruence.
  - reflexivity.
Qed.

(** The alpha of the last pixel of a BGRA source. *)
Lemma call_alpha set T w h src dst sb (ss : option (arr Z)) slices ds dd m m' : is_target T ->
  0 < w -> 0 < h -> valid_image dst w h -> supported (i_pf src) (i_pf dst) = true ->
  strides_below (usz T) src -> buffers_ok (isize_max T) sb ->
  i_pf src = Bgra -> rows_apart src w h -> image_in (-1) src w h sb -> reads_alpha set (i_pf dst) w = true ->
  option_map adata ss = i_strides src ->
  (exists n, forall x, nth_error (adata slices) 0 = Some x -> x = Slice (Src 0) 0 n) ->
  srcs m = sb ->
  call_converter (converters set) w h src dst ss slices ds dd T m = Ok Success m' ->
  image_in 0 src w h sb.
Proof.
  intros HT W0 H0 Vd Hsup Ss Bs Ps Ra Is Al Es Eb Hm E.
  unfold image_in, rows_apart, image_planes in Is, Ra |- *. rewrite Ps in *. cbn [planes bytes_per_pixel] in *.
  pose proof (Forall_inv Is) as I1. pose proof (Forall_inv Ra) as R1. constructor; [|constructor].
  unfold plane_in in I1 |- *. cbn [g_base g_rows g_stride g_row g_buf] in *.
  set (stride := eff_stride (i_strides src) 0 (4 * w)) in *.
  assert (Hlen : buf_len sb 0 < usz T - 1).
  { destruct (isize_usz T HT) as (? & ? & ?). pose proof (buffers_len (isize_max T) sb 0%nat ltac:(lia) Bs). unfold isize_max in *. lia. }
  assert (Hst : stride < usz T).
  { destruct (Z.eq_dec stride (4 * w)) as [Q|Q]; [nia|].
    unfold strides_below in Ss. unfold stride, eff_stride in Q |- *. destruct (i_strides src) as [l|]; [|lia].
    destruct (nth_in_or_default 0%nat l 0) as [Hi|Hi].
    - rewrite Forall_forall in Ss. specialize (Ss _ Hi). destruct (nth 0 l 0 =? 0); lia.
    - rewrite Hi in *. change (0 =? 0) with true in *. cbv iota in *. lia. }
  (unfold call_converter, bind, ret in E; cbn [run] in E). rewrite Ps in E.
  destruct (converters set _ w h _ _ slices _ _ dd T m) as [b m1|f] eqn:E1; [|discriminate].
  destruct b; [|discriminate].
  set (s0 := match i_strides src with Some l => nth 0 l 0 | None => 0 end).
  assert (Hstr : stride = compute_stride s0 (4 * w)).
  { unfold stride, eff_stride, compute_stride, s0. destruct (i_strides src); reflexivity. }
  destruct Eb as (n & Eb).
  assert (Es' : forall x, nth_error (adata (strides_or_default ss)) 0 = Some x -> x = s0).
  { unfold s0. rewrite <- Es. destruct ss as [a|]; cbn [option_map strides_or_default].
    - destruct (adata a); cbn; congruence.
    - vm_compute. congruence. }
  assert (Hm2 : i_pf dst = Nv12 \/ i_pf dst = I420 -> h mod 2 = 0).
  { destruct Vd as (_ & _ & Vz). intros [Q|Q]; rewrite Q in Vz; cbn [valid_size] in Vz; lia. }
  pose proof (converter_alpha T sb set (i_pf dst) (i_cs src) (i_cs dst) w h (u32 (i_planes src - 1)) (strides_or_default ss) slices
    (u32 (i_planes dst - 1)) (strides_or_default ds) dd s0 (Slice (Src 0) 0 n) 0%nat Hsup Hm2 Al Es' Eb eq_refl eq_refl) as C.
  cbv zeta in C. rewrite <- Hstr in C.
  specialize (C ltac:(lia) W0 H0 ltac:(lia) m true m1 Hm E1 eq_refl).
  unfold buf_len, zlen in *. lia.
Qed.

Lemma success_alpha set T w h src dst sb db m : is_target T -> well_formed (usz T) w h src dst sb db ->
  0 < w -> 0 < h -> i_pf src = Bgra -> rows_apart src w h -> image_in (-1) src w h sb -> reads_alpha set (i_pf dst) w = true ->
  convert (converters set) T w h src dst sb db = Ok Success m -> image_in 0 src w h sb.
Proof.
  intros HT HW W0 H0 Ps Ra Is Al E. destruct (format_planes_u32 _ _ _ _ _ _ _ HW) as [Us Ud].
  destruct HW as (_ & _ & _ & _ & Ss & _ & Bs & _). unfold convert in E.
  destruct (convert_image_cases (converters set) w h src (option_map arr_of (i_strides src)) (arr_of (rust_slices Src sb))
              dst (option_map arr_of (i_strides dst)) (arr_of (rust_slices Dst db)) T (Mem sb db) Us Ud)
    as [[_ F]|[(_ & _ & _ & F)|(Vs & Vd & Hs & F)]]; [congruence|congruence|]. rewrite F in E.
  eapply call_alpha; [exact HT|exact W0|exact H0|exact Vd|exact Hs|exact Ss|exact Bs|exact Ps|exact Ra|exact Is|exact Al| | | |exact E].
  - destruct (i_strides src); reflexivity.
  - exists (zlen (nth 0 sb [])). intros x. destruct sb; cbn; congruence.
  - reflexivity.
Qed.

Lemma c_success_alpha set T w h src dst sb db error error' m : is_target T -> well_formed (usz T) w h src dst sb db ->
  0 < w -> 0 < h -> i_pf src = Bgra -> rows_apart src w h -> image_in (-1) src w h sb -> reads_alpha set (i_pf dst) w = true ->
  enough_planes src sb -> enough_planes dst db ->
  c_convert (converters set) T w h src dst sb db error = Ok (C_Ok, error') m -> image_in 0 src w h sb.
Proof.
  intros HT HW W0 H0 Ps Ra Is Al En1 En2 E. destruct (format_planes_u32 _ _ _ _ _ _ _ HW) as [Us Ud].
  destruct HW as (W & H & _ & _ & Ss & Sd & Bs & Bd).
  rewrite (c_convert_eq T) in E; try assumption; [|apply En1|apply En2].
  destruct (convert_image_cases (converters set) w h src (option_map (Arr (isize_max T)) (i_strides src)) (c_slices T Src (i_planes src))
              dst (option_map (Arr (isize_max T)) (i_strides dst)) (c_slices T Dst (i_planes dst)) T (Mem sb db) Us Ud)
    as [[_ F]|[(_ & _ & _ & F)|(Vs & Vd & Hs & F)]]; cbv zeta in F; rewrite F in E; [destruct error; discriminate|destruct error; discriminate|].
  destruct (call_converter _ _ _ _ _ _ _ _ _ T (Mem sb db)) as [o m1|f] eqn:E1; [|discriminate].
  assert (o = Success) as -> by (destruct o; [reflexivity|destruct error; discriminate]).
  eapply call_alpha; [exact HT|exact W0|exact H0|exact Vd|exact Hs|exact Ss|exact Bs|exact Ps|exact Ra|exact Is|exact Al| | | |exact E1].
  - destruct (i_strides src); reflexivity.
  - exists (isize_max T). intros x. unfold c_slices. cbn [adata].
    destruct (Z.to_nat (i_planes src)); cbn [seq map nth_error]; congruence.
  - reflexivity.
Qed.

Lemma documented_exact set T w h src dst sb db : is_target T -> documented_call (usz T) w h src dst sb db ->
  (room set src dst w h sb ->
   exists after, convert (converters set) T w h src dst sb db = Ok Success (Mem sb after) /\
     converted (set_cols set (i_pf src) (i_pf dst) w) src dst w h sb db after) /\
  (~ room set src dst w h sb -> convert (converters set) T w h src dst sb db = Fault OOB_read).
Proof.
  intros HT HD. split; [apply any_documented_room; auto|]. intros NR.
  destruct (any_documented set T w h src dst sb db HT HD) as [(a & E & _)|[E _]]; [|exact E].
  exfalso. apply NR. destruct (documented_laid_out _ _ _ _ _ _ _ HD) as [[Is _] _].
  destruct HD as (HW & W0 & H0 & _). eapply success_room; eauto.
Qed.

Lemma success_has_room set T w h src dst sb db m : successful_call (converters set) T w h src dst sb db m ->
  room set src dst w h sb.
Proof. intros (HT & HW & W0 & H0 & [Is _] & _ & E). eapply success_room; eauto. Qed.
