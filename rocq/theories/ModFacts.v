(** The checking wrappers when a product does not fit. *)
From Coq Require Import ZArith List Bool Lia ZifyBool ZifyNat.
Import ListNotations.
From Verif Require Import Base Exec Area Fmt Dispatch Common Scalar Wrappers Lib CpuInfo Spec SetSpec ApiSpec Sets Api PixelFacts
  KernelBase WrapperFacts ConvProofs LibFacts ApiProofs SetProofs FinalProofs ConvertProofs CallFacts PadFacts PropFacts
  AcceptSpec AcceptFacts ModSpec.
Open Scope Z_scope.
Ltac Zify.zify_post_hook ::= Z.div_mod_to_equations.

(** ** The wrappers, given what their multiplications give *)
Section Eq.
Variable T : target.
Variable m : mem.
Ltac step := erewrite bind_eq by (first [eassumption | apply aidx_eq; eassumption]).

Lemma nv12_rgb_w_as depth k w h last ss sb last' ds db s0 s1 b0 b1 d0 bd r n :
  0 < w -> 1 < h < usz T -> usz_range T w -> umul depth w T m = Ok r m -> usz_range T r ->
  has ss 0 s0 -> has ss last s1 -> has sb 0 b0 -> has sb last b1 -> has ds 0 d0 -> has db 0 bd ->
  usz_range T s0 -> usz_range T s1 -> usz_range T d0 ->
  usz_range T (s_len b0) -> usz_range T (s_len b1) -> usz_range T (s_len bd) ->
  let ss0 := compute_stride s0 w in
  let ss1 := compute_stride s1 w in
  let dst_stride := compute_stride d0 r in
  (last = 0 -> umul ss0 h T m = Ok n m /\ usz_range T n) ->
  let '(yb, uvb) := nv12_slices last b0 b1 n in
  nv12_rgb_w depth k w h last ss sb last' ds db T m =
  (if negb ((last =? 0) && (s_len b0 <? n)) && accepts (s_len yb) ss0 h w
      && accepts (s_len uvb) ss1 (h / 2) w && accepts (s_len bd) dst_stride h r
   then (k w h (ss0, ss1) (yb, uvb) dst_stride bd ;; ret true) T m
   else Ok false m).
Proof.
  intros Hw Hh Uw Er Ud Hs0 Hs1 Hb0 Hb1 Hd0 Hbd Us0 Us1 Ud0 Ub0 Ub1 Ubd ss0 ss1 dst_stride Hov.
  unfold usz_range in *.
  assert (R0 : usz_range T ss0) by (unfold ss0, compute_stride, usz_range; destruct (s0 =? 0); lia).
  assert (R1 : usz_range T ss1) by (unfold ss1, compute_stride, usz_range; destruct (s1 =? 0); lia).
  assert (R2 : usz_range T dst_stride) by (unfold dst_stride, compute_stride, usz_range; destruct (d0 =? 0); lia).
  unfold usz_range in *.
  unfold nv12_slices, nv12_rgb_w.
  assert (Hl1 : last < alen ss /\ last < alen sb /\ alen ds <> 0 /\ alen db <> 0)
    by (destruct Hs1, Hb1, Hd0, Hbd; lia).
  replace ((w =? 0) || (h =? 0)) with false by lia.
  replace ((alen ss <=? last) || (alen sb <=? last) || (alen ds =? 0) || (alen db =? 0)) with false by lia.
  cbv zeta. step. step. step. step. step. step.
  change (compute_stride s0 w) with ss0. change (compute_stride s1 w) with ss1.
  change (compute_stride d0 r) with dst_stride.
  destruct (Z.eqb_spec last 0) as [E|E].
  - specialize (Hov E). destruct Hov as [En Un]. unfold usz_range in Un.
    destruct (Z.ltb_spec (s_len b0) n) as [Hlt|Hge].
    + cbn [andb negb]. erewrite bind_eq.
      2:{ erewrite bind_eq by exact En.
          replace (s_len b0 <? n) with true by lia. reflexivity. }
      reflexivity.
    + cbn [andb negb]. erewrite bind_eq.
      2:{ erewrite bind_eq by exact En.
          replace (s_len b0 <? n) with false by lia.
          erewrite bind_eq by exact En.
          erewrite bind_eq by (apply split_at_eq; lia). reflexivity. }
      cbv beta iota. step. erewrite bind_eq.
      2:{ apply orM_eq; [apply oob_call_eq; unfold usz_range; cbn [s_len]; lia|].
          apply orM_eq; apply oob_call_eq; unfold usz_range; cbn [s_len]; lia. }
      cbn [s_len].
      destruct (accepts n ss0 h w), (accepts (s_len b0 - n) ss1 (h / 2) w),
        (accepts (s_len bd) dst_stride h r); reflexivity.
  - cbn [andb negb]. erewrite bind_eq by reflexivity. cbv beta iota. step. erewrite bind_eq.
    2:{ apply orM_eq; [apply oob_call_eq; unfold usz_range; lia|].
        apply orM_eq; apply oob_call_eq; unfold usz_range; lia. }
    destruct (accepts (s_len b0) ss0 h w), (accepts (s_len b1) ss1 (h / 2) w),
      (accepts (s_len bd) dst_stride h r); reflexivity.
Qed.

Lemma i4xx_rgb_w_as sub depth k w h last ss sb last' ds db s0 s1 s2 b0 b1 b2 d0 bd r :
  0 < sub -> 0 < w -> 0 < h < usz T -> 0 < h / sub -> usz_range T w -> umul depth w T m = Ok r m -> usz_range T r ->
  has ss 0 s0 -> has ss 1 s1 -> has ss 2 s2 -> has sb 0 b0 -> has sb 1 b1 -> has sb 2 b2 ->
  has ds 0 d0 -> has db 0 bd ->
  usz_range T s0 -> usz_range T s1 -> usz_range T s2 -> usz_range T d0 ->
  usz_range T (s_len b0) -> usz_range T (s_len b1) -> usz_range T (s_len b2) -> usz_range T (s_len bd) ->
  let ss0 := compute_stride s0 w in
  let ss1 := compute_stride s1 (w / sub) in
  let ss2 := compute_stride s2 (w / sub) in
  let dst_stride := compute_stride d0 r in
  i4xx_rgb_w sub depth k w h last ss sb last' ds db T m =
  (if accepts (s_len b0) ss0 h w && accepts (s_len b1) ss1 (h / sub) (w / sub)
      && accepts (s_len b2) ss2 (h / sub) (w / sub) && accepts (s_len bd) dst_stride h r
   then (k w h (ss0, ss1, ss2) (b0, b1, b2) dst_stride bd ;; ret true) T m
   else Ok false m).
Proof.
  intros Hsub Hw Hh Hch Uw Er Ud Hs0 Hs1 Hs2 Hb0 Hb1 Hb2 Hd0 Hbd Us0 Us1 Us2 Ud0 Ub0 Ub1 Ub2 Ubd
    ss0 ss1 ss2 dst_stride.
  unfold usz_range in *.
  assert (Hcw : 0 <= w / sub <= w) by (split; [apply Z.div_pos; lia|apply Z.div_le_upper_bound; nia]).
  assert (Hch' : h / sub <= h) by (apply Z.div_le_upper_bound; nia).
  assert (R0 : 0 <= ss0 < usz T) by (unfold ss0, compute_stride; destruct (s0 =? 0); lia).
  assert (R1 : 0 <= ss1 < usz T) by (unfold ss1, compute_stride; destruct (s1 =? 0); lia).
  assert (R3 : 0 <= ss2 < usz T) by (unfold ss2, compute_stride; destruct (s2 =? 0); lia).
  assert (R2 : 0 <= dst_stride < usz T) by (unfold dst_stride, compute_stride; destruct (d0 =? 0); lia).
  unfold i4xx_rgb_w.
  assert (Hl1 : 3 <= alen ss /\ 3 <= alen sb /\ alen ds <> 0 /\ alen db <> 0)
    by (destruct Hs2, Hb2, Hd0, Hbd; lia).
  replace ((w =? 0) || (h =? 0)) with false by lia.
  replace ((alen ss <? 3) || (alen sb <? 3) || (alen ds =? 0) || (alen db =? 0)) with false by lia.
  cbv zeta. step. step. step. step. step. step. step. step. step.
  change (compute_stride s0 w) with ss0. change (compute_stride s1 (w / sub)) with ss1.
  change (compute_stride s2 (w / sub)) with ss2.
  change (compute_stride d0 r) with dst_stride.
  erewrite bind_eq.
  2:{ apply orM_eq; [apply oob_call_eq; unfold usz_range; lia|].
      apply orM_eq; [apply oob_call_eq; unfold usz_range; lia|].
      apply orM_eq; apply oob_call_eq; unfold usz_range; lia. }
  destruct (accepts (s_len b0) ss0 h w), (accepts (s_len b1) ss1 (h / sub) (w / sub)),
    (accepts (s_len b2) ss2 (h / sub) (w / sub)), (accepts (s_len bd) dst_stride h r); reflexivity.
Qed.

Lemma rgb_i4xx_w_as sub depth k w h last ss sb last' ds db s0 bs d0 d1 d2 b0 b1 b2 r :
  0 < sub -> 0 < w -> 0 < h < usz T -> 0 < h / sub -> usz_range T w -> umul depth w T m = Ok r m -> usz_range T r ->
  has ss 0 s0 -> has sb 0 bs -> has ds 0 d0 -> has ds 1 d1 -> has ds 2 d2 ->
  has db 0 b0 -> has db 1 b1 -> has db 2 b2 ->
  usz_range T s0 -> usz_range T d0 -> usz_range T d1 -> usz_range T d2 ->
  usz_range T (s_len bs) -> usz_range T (s_len b0) -> usz_range T (s_len b1) -> usz_range T (s_len b2) ->
  let src_stride := compute_stride s0 r in
  let ds0 := compute_stride d0 w in
  let ds1 := compute_stride d1 (w / sub) in
  let ds2 := compute_stride d2 (w / sub) in
  rgb_i4xx_w sub depth k w h last ss sb last' ds db T m =
  (if accepts (s_len bs) src_stride h r && accepts (s_len b0) ds0 h w
      && accepts (s_len b1) ds1 (h / sub) (w / sub) && accepts (s_len b2) ds2 (h / sub) (w / sub)
   then (k w h src_stride bs (ds0, ds1, ds2) (b0, b1, b2) ;; ret true) T m
   else Ok false m).
Proof.
  intros Hsub Hw Hh Hch Uw Er Ud Hs0 Hbs Hd0 Hd1 Hd2 Hb0 Hb1 Hb2 Us0 Ud0 Ud1 Ud2 Ubs Ub0 Ub1 Ub2
    src_stride ds0 ds1 ds2.
  unfold usz_range in *.
  assert (Hcw : 0 <= w / sub <= w) by (split; [apply Z.div_pos; lia|apply Z.div_le_upper_bound; nia]).
  assert (Hch' : h / sub <= h) by (apply Z.div_le_upper_bound; nia).
  assert (R0 : 0 <= ds0 < usz T) by (unfold ds0, compute_stride; destruct (d0 =? 0); lia).
  assert (R1 : 0 <= ds1 < usz T) by (unfold ds1, compute_stride; destruct (d1 =? 0); lia).
  assert (R3 : 0 <= ds2 < usz T) by (unfold ds2, compute_stride; destruct (d2 =? 0); lia).
  assert (R2 : 0 <= src_stride < usz T) by (unfold src_stride, compute_stride; destruct (s0 =? 0); lia).
  unfold rgb_i4xx_w.
  assert (Hl1 : alen ss <> 0 /\ alen sb <> 0 /\ 3 <= alen ds /\ 3 <= alen db)
    by (destruct Hs0, Hbs, Hd2, Hb2; lia).
  replace ((w =? 0) || (h =? 0)) with false by lia.
  replace ((alen ss =? 0) || (alen sb =? 0) || (alen ds <? 3) || (alen db <? 3)) with false by lia.
  cbv zeta. step. step. step. step. step. step. step. step. step.
  change (compute_stride d0 w) with ds0. change (compute_stride d1 (w / sub)) with ds1.
  change (compute_stride d2 (w / sub)) with ds2.
  change (compute_stride s0 r) with src_stride.
  erewrite bind_eq.
  2:{ apply orM_eq; [apply oob_call_eq; unfold usz_range; lia|].
      apply orM_eq; [apply oob_call_eq; unfold usz_range; lia|].
      apply orM_eq; apply oob_call_eq; unfold usz_range; lia. }
  destruct (accepts (s_len bs) src_stride h r), (accepts (s_len b0) ds0 h w),
    (accepts (s_len b1) ds1 (h / sub) (w / sub)), (accepts (s_len b2) ds2 (h / sub) (w / sub)); reflexivity.
Qed.

Lemma rgb_nv12_w_as depth k w h last' ss sb last ds db s0 bs d0 d1 b0 b1 r n :
  0 < w -> 1 < h < usz T -> usz_range T w -> umul depth w T m = Ok r m -> usz_range T r ->
  has ss 0 s0 -> has sb 0 bs -> has ds 0 d0 -> has ds last d1 -> has db 0 b0 -> has db last b1 ->
  usz_range T s0 -> usz_range T d0 -> usz_range T d1 ->
  usz_range T (s_len bs) -> usz_range T (s_len b0) -> usz_range T (s_len b1) ->
  let src_stride := compute_stride s0 r in
  let ds0 := compute_stride d0 w in
  let ds1 := compute_stride d1 w in
  (last = 0 -> umul ds0 h T m = Ok n m /\ usz_range T n) ->
  let '(yb, uvb) := nv12_slices last b0 b1 n in
  rgb_nv12_w depth k w h last' ss sb last ds db T m =
  (if negb ((last =? 0) && (s_len b0 <? n)) && accepts (s_len bs) src_stride h r
      && accepts (s_len yb) ds0 h w && accepts (s_len uvb) ds1 (h / 2) w
   then (k w h src_stride bs (ds0, ds1) (yb, uvb) ;; ret true) T m
   else Ok false m).
Proof.
  intros Hw Hh Uw Er Ud Hs0 Hbs Hd0 Hd1 Hb0 Hb1 Us0 Ud0 Ud1 Ubs Ub0 Ub1 src_stride ds0 ds1 Hov.
  unfold usz_range in *.
  assert (R0 : 0 <= ds0 < usz T) by (unfold ds0, compute_stride; destruct (d0 =? 0); lia).
  assert (R1 : 0 <= ds1 < usz T) by (unfold ds1, compute_stride; destruct (d1 =? 0); lia).
  assert (R2 : 0 <= src_stride < usz T) by (unfold src_stride, compute_stride; destruct (s0 =? 0); lia).
  unfold nv12_slices, rgb_nv12_w.
  assert (Hl1 : alen ss <> 0 /\ alen sb <> 0 /\ last < alen ds /\ last < alen db)
    by (destruct Hs0, Hbs, Hd1, Hb1; lia).
  replace ((w =? 0) || (h =? 0)) with false by lia.
  replace ((alen ss =? 0) || (alen sb =? 0) || (alen ds <=? last) || (alen db <=? last)) with false by lia.
  cbv zeta. step. step. step. step. step.
  change (compute_stride d0 w) with ds0. change (compute_stride d1 w) with ds1.
  change (compute_stride s0 r) with src_stride.
  destruct (Z.eqb_spec last 0) as [E|E].
  - specialize (Hov E). destruct Hov as [En Un]. unfold usz_range in Un.
    assert (E' : aidx db last T m = Ok b0 m) by (rewrite E; apply aidx_eq; auto).
    destruct (Z.ltb_spec (s_len b0) n) as [Hlt|Hge].
    + cbn [andb negb]. erewrite bind_eq.
      2:{ erewrite bind_eq by exact E'.
          erewrite bind_eq by exact En.
          replace (s_len b0 <? n) with true by lia. reflexivity. }
      reflexivity.
    + cbn [andb negb]. erewrite bind_eq.
      2:{ erewrite bind_eq by exact E'.
          erewrite bind_eq by exact En.
          replace (s_len b0 <? n) with false by lia.
          erewrite bind_eq by exact En.
          erewrite bind_eq by (apply split_at_eq; lia). reflexivity. }
      cbv beta iota. erewrite bind_eq.
      2:{ apply orM_eq; [apply oob_call_eq; unfold usz_range; cbn [s_len]; lia|].
          apply orM_eq; apply oob_call_eq; unfold usz_range; cbn [s_len]; lia. }
      cbn [s_len].
      destruct (accepts (s_len bs) src_stride h r), (accepts n ds0 h w),
        (accepts (s_len b0 - n) ds1 (h / 2) w); reflexivity.
  - cbn [andb negb]. erewrite bind_eq.
    2:{ step. step. reflexivity. }
    cbv beta iota. erewrite bind_eq.
    2:{ apply orM_eq; [apply oob_call_eq; unfold usz_range; lia|].
        apply orM_eq; apply oob_call_eq; unfold usz_range; lia. }
    destruct (accepts (s_len bs) src_stride h r), (accepts (s_len b0) ds0 h w),
      (accepts (s_len b1) ds1 (h / 2) w); reflexivity.
Qed.

Lemma rgb_rgb_w_as sdepth ddepth k w h last' ss sb last ds db s0 bs d0 bd rs rd :
  0 < w -> 0 < h < usz T -> usz_range T w -> umul sdepth w T m = Ok rs m -> usz_range T rs -> umul ddepth w T m = Ok rd m -> usz_range T rd ->
  has ss 0 s0 -> has sb 0 bs -> has ds 0 d0 -> has db 0 bd ->
  usz_range T s0 -> usz_range T d0 -> usz_range T (s_len bs) -> usz_range T (s_len bd) ->
  let src_stride := compute_stride s0 rs in
  let dst_stride := compute_stride d0 rd in
  rgb_rgb_w sdepth ddepth k w h last' ss sb last ds db T m =
  (if accepts (s_len bs) src_stride h w && accepts (s_len bd) dst_stride h w
   then (k w h src_stride bs dst_stride bd ;; ret true) T m
   else Ok false m).
Proof.
  intros Hw Hh Uw Es Us Ed Ud Hs0 Hbs Hd0 Hbd Us0 Ud0 Ubs Ubd src_stride dst_stride.
  unfold usz_range in *.
  assert (R1 : 0 <= dst_stride < usz T) by (unfold dst_stride, compute_stride; destruct (d0 =? 0); lia).
  assert (R2 : 0 <= src_stride < usz T) by (unfold src_stride, compute_stride; destruct (s0 =? 0); lia).
  unfold rgb_rgb_w.
  assert (Hl1 : alen ss <> 0 /\ alen sb <> 0 /\ alen ds <> 0 /\ alen db <> 0)
    by (destruct Hs0, Hbs, Hd0, Hbd; lia).
  replace ((w =? 0) || (h =? 0)) with false by lia.
  replace ((alen ss =? 0) || (alen sb =? 0) || (alen ds =? 0) || (alen db =? 0)) with false by lia.
  cbv zeta. step. step. step. step. step. step.
  change (compute_stride d0 rd) with dst_stride.
  change (compute_stride s0 rs) with src_stride.
  erewrite bind_eq.
  2:{ apply orM_eq; apply oob_call_eq; unfold usz_range; lia. }
  destruct (accepts (s_len bs) src_stride h w), (accepts (s_len bd) dst_stride h w); reflexivity.
Qed.

End Eq.

(** ** Which wrapper a conversion runs *)
Inductive shape (src dst : image) (c : converter) : Prop :=
| Sh_rgb k : is_rgb (i_pf src) = true -> is_rgb (i_pf dst) = true -> i_planes src = 1 -> i_planes dst = 1 ->
    c = rgb_rgb_w (bytes_per_pixel (i_pf src)) (bytes_per_pixel (i_pf dst)) k -> shape src dst c
| Sh_i444 k : is_rgb (i_pf src) = true -> i_planes src = 1 -> i_pf dst = I444 -> i_planes dst = 3 ->
    c = rgb_i4xx_w 1 (bytes_per_pixel (i_pf src)) k -> shape src dst c
| Sh_i420 k : is_rgb (i_pf src) = true -> i_planes src = 1 -> i_pf dst = I420 -> i_planes dst = 3 ->
    c = rgb_i4xx_w 2 (bytes_per_pixel (i_pf src)) k -> shape src dst c
| Sh_nv12 k : is_rgb (i_pf src) = true -> i_planes src = 1 -> i_pf dst = Nv12 -> (i_planes dst = 1 \/ i_planes dst = 2) ->
    c = rgb_nv12_w (bytes_per_pixel (i_pf src)) k -> shape src dst c
| Sh_i444r k : is_rgb (i_pf dst) = true -> i_planes dst = 1 -> i_pf src = I444 -> i_planes src = 3 ->
    c = i4xx_rgb_w 1 (bytes_per_pixel (i_pf dst)) k -> shape src dst c
| Sh_i420r k : is_rgb (i_pf dst) = true -> i_planes dst = 1 -> i_pf src = I420 -> i_planes src = 3 ->
    c = i4xx_rgb_w 2 (bytes_per_pixel (i_pf dst)) k -> shape src dst c
| Sh_nv12r k : is_rgb (i_pf dst) = true -> i_planes dst = 1 -> i_pf src = Nv12 -> (i_planes src = 1 \/ i_planes src = 2) ->
    c = nv12_rgb_w (bytes_per_pixel (i_pf dst)) k -> shape src dst c.

Lemma rgb_one pf n : is_rgb pf = true -> valid_num_planes pf n -> n = 1.
Proof. destruct pf; try discriminate; auto. Qed.

Lemma converter_shape T A slack impl : impl_ok T A slack impl -> forall w h src dst,
  valid_image src w h -> valid_image dst w h -> supported (i_pf src) (i_pf dst) = true ->
  shape src dst (impl (conv_of (i_pf src) (i_pf dst) (i_cs src) (i_cs dst))).
Proof.
  intros HI w h src dst (Cs & Ns & Zs) (Cd & Nd & Zd) Hsup.
  unfold valid_colors in *.
  assert (RYUV : is_rgb (i_pf src) = false -> i_cs src <> CsRgb).
  { intros E F. apply Cs in F. congruence. }
  assert (DYUV : is_rgb (i_pf dst) = false -> i_cs dst <> CsRgb).
  { intros E F. apply Cd in F. congruence. }
  assert (FWD : is_rgb (i_pf dst) = false -> exists smp, i_pf src = kfmt smp).
  { intros E. destruct (i_pf src) eqn:Ps, (i_pf dst) eqn:Pd; try discriminate;
      [exists S_Argb|exists S_Argb|exists S_Argb|exists S_Bgra|exists S_Bgra|exists S_Bgra
      |exists S_Bgr|exists S_Bgr|exists S_Bgr]; reflexivity. }
  destruct (is_rgb (i_pf dst)) eqn:Rd.
  - pose proof (rgb_one _ _ Rd Nd) as Nd1.
    destruct (is_rgb (i_pf src)) eqn:Rs; unfold conv_of; rewrite ?Rs, ?Rd.
    + destruct (io_rgb T A slack impl HI (i_pf src) (i_pf dst) Rs Rd Hsup) as (k & -> & _).
      exact (Sh_rgb src dst _ k Rs Rd (rgb_one _ _ Rs Ns) Nd1 eq_refl).
    + destruct (cs_of_colorimetry _ (RYUV eq_refl)) as [c Ec]. rewrite Ec.
      destruct (i_pf src) eqn:Ps; try discriminate; cbn [valid_num_planes] in Ns.
      * destruct (io_i444r T A slack impl HI (i_pf dst) c Hsup) as (k & -> & K). eapply Sh_i444r; eauto.
      * destruct (io_i420r T A slack impl HI (i_pf dst) c Hsup) as (k & -> & K). eapply Sh_i420r; eauto.
      * destruct (io_nv12r T A slack impl HI (i_pf dst) c Hsup) as (k & -> & K). eapply Sh_nv12r; eauto.
  - destruct (FWD eq_refl) as [smp Ps].
    destruct (cs_of_colorimetry _ (DYUV eq_refl)) as [c Ec].
    assert (Rs : is_rgb (i_pf src) = true) by (rewrite Ps; destruct smp; reflexivity).
    pose proof (rgb_one _ _ Rs Ns) as Ns1.
    assert (Dp : sampler_depth smp = bytes_per_pixel (i_pf src)) by (rewrite Ps; destruct smp; reflexivity).
    unfold conv_of. rewrite Rs, Rd, Ec, Ps.
    destruct (i_pf dst) eqn:Pd; try discriminate; cbn [valid_num_planes] in Nd.
    + destruct (io_i444 T A slack impl HI smp c) as (k & -> & K). rewrite Dp. eapply Sh_i444; eauto.
    + exfalso. rewrite Ps in Hsup. destruct smp; discriminate.
    + destruct (io_i420 T A slack impl HI smp c) as (k & -> & K). rewrite Dp. eapply Sh_i420; eauto.
    + destruct (io_nv12 T A slack impl HI smp c) as (k & -> & K). rewrite Dp. eapply Sh_nv12; eauto.
Qed.

(** ** Products *)
Lemma umul_mod T a b m : 0 <= a * b -> (checked T = true -> a * b < usz T) -> 0 < usz T ->
  umul a b T m = Ok ((a * b) mod usz T) m.
Proof.
  intros P C U. unfold umul, ures. cbn [run].
  destruct ((0 <=? a * b) && (a * b <? usz T)) eqn:E.
  - rewrite Z.mod_small by lia. reflexivity.
  - destruct (checked T); [specialize (C eq_refl); lia|]. reflexivity.
Qed.

Lemma umul_over T a b m : usz T <= a * b -> checked T = true -> umul a b T m = Fault Overflow.
Proof.
  intros P C. unfold umul, ures. cbn [run]. replace ((0 <=? a * b) && (a * b <? usz T)) with false by lia.
  rewrite C. reflexivity.
Qed.

Lemma bind_over {A B} T m (c : M A) (k : A -> M B) : c T m = Fault Overflow -> bind c k T m = Fault Overflow.
Proof. intros H. unfold bind. cbn [run]. rewrite H. reflexivity. Qed.

(** A wrapper runs its kernel if [P] and answers false if not. *)
Definition answers (T : target) (m : mem) (P : Prop) (r : res bool) : Prop :=
  (P -> exists k : M unit, r = (k ;; ret true) T m) /\ (~ P -> r = Ok false m).

Lemma answers_if T m (P : Prop) (b : bool) (k : M unit) : (b = true <-> P) ->
  answers T m P (if b then (k ;; ret true) T m else Ok false m).
Proof. intros E. split; intros H; destruct b; eauto; tauto || (exfalso; apply H, E; reflexivity) || (apply E in H; discriminate). Qed.

Section Call.
Variable T : target.
Hypothesis HT : is_target T.
Variables w h : Z.
Hypothesis Hw : 0 < w < 2 ^ 32.
Hypothesis Hh : 0 < h < 2 ^ 32.
Variables src dst : image.
Variables ss ds : arr Z.
Variables sa da : arr slice.
Variables sb db : list (list Z).
Hypothesis Vss : strides_view T ss (i_strides src) (i_planes src).
Hypothesis Vds : strides_view T ds (i_strides dst) (i_planes dst).
Hypothesis Vsa : slices_view T sa Src sb (buf_len sb) (i_planes src).
Hypothesis Vda : slices_view T da Dst db (buf_len db) (i_planes dst).
Hypothesis Vs : valid_image src w h.
Hypothesis Vd : valid_image dst w h.

Local Notation packed := (is_rgb (i_pf src) && is_rgb (i_pf dst)).

Lemma usz_pos : 2 ^ 32 <= usz T.
Proof. destruct HT as [[-> _]|[-> _]]; lia. Qed.

Lemma len_range bufs i : 0 <= buf_len bufs i.
Proof. unfold buf_len. lia. Qed.

Ltac open_plane V i :=
  let x := fresh "s" in let H := fresh "Hs" in let U := fresh "U" in let E := fresh "E" in
  destruct (V i ltac:(lia)) as (x & H & U & E); change (Z.of_nat i) with (Z.of_nat i) in H; cbn [Z.of_nat Pos.of_succ_nat Pos.succ] in H.
Ltac open_slice V i :=
  let H := fresh "Hb" in let L := fresh "L" in
  destruct (V i ltac:(lia)) as (H & _ & L); cbn [Z.of_nat Pos.of_succ_nat Pos.succ] in H.

Lemma mod_range x : usz_range T (x mod usz T).
Proof. unfold usz_range. pose proof usz_pos. apply Z.mod_pos_bound. lia. Qed.

Lemma row_pos im : is_rgb (i_pf im) = true -> 0 <= bytes_per_pixel (i_pf im) * w.
Proof. intros R. assert (0 <= bytes_per_pixel (i_pf im)) by (destruct (i_pf im); cbn; lia). nia. Qed.

Lemma taken_mod_rgb pk im bufs : is_rgb (i_pf im) = true ->
  image_taken_mod (usz T) pk im w h bufs =
  plane_taken (buf_len bufs 0) (eff_stride (i_strides im) 0 ((bytes_per_pixel (i_pf im) * w) mod usz T)) h
    (if pk then w else (bytes_per_pixel (i_pf im) * w) mod usz T).
Proof. intros R. unfold image_taken_mod. rewrite R. reflexivity. Qed.

Ltac mul := apply umul_mod; [apply row_pos; assumption|assumption|lia].

Lemma accepts_taken len s rows row : accepts len s rows row = true <-> plane_taken len s rows row.
Proof. unfold accepts, plane_taken. apply Z.leb_le. Qed.

Lemma luma_pos im a i : strides_view T a (i_strides im) (i_planes im) -> Z.of_nat i < i_planes im ->
  0 <= eff_stride (i_strides im) i w * h.
Proof.
  intros V I. pose proof usz_pos. assert (usz_range T (eff_stride (i_strides im) i w)) as [R _].
  { eapply eff_stride_range; [exact V|exact I|unfold usz_range; lia]. }
  apply Z.mul_nonneg_nonneg; lia.
Qed.

Lemma wrapper_mod (c : converter) m : shape src dst c ->
  (checked T = true -> ~ too_large (usz T) src w h /\ ~ too_large (usz T) dst w h) ->
  answers T m (image_taken_mod (usz T) packed src w h sb /\ image_taken_mod (usz T) packed dst w h db)
    (c w h (i_planes src - 1) ss sa (i_planes dst - 1) ds da T m).
Proof.
  intros Sh Ck. pose proof usz_pos as UP. pose proof (isize_usz T HT) as (I0 & I1 & I2).
  assert (Uw : usz_range T w) by (unfold usz_range; lia).
  assert (Lr : forall bufs i, buf_len bufs i <= isize_max T + 8 -> usz_range T (buf_len bufs i))
    by (intros bufs i L; pose proof (len_range bufs i); unfold usz_range; lia).
  assert (Cs : checked T = true -> bytes_per_pixel (i_pf src) * w < usz T).
  { intros C. destruct (Ck C) as [C1 _]. unfold too_large in C1. lia. }
  assert (Cd : checked T = true -> bytes_per_pixel (i_pf dst) * w < usz T).
  { intros C. destruct (Ck C) as [_ C1]. unfold too_large in C1. lia. }
  destruct Vs as (_ & _ & Zs), Vd as (_ & _ & Zd).
  destruct Sh as [k Rs Rd Ns Nd ->|k Rs Ns Pd Nd ->|k Rs Ns Pd Nd ->|k Rs Ns Pd Nd ->|k Rd Nd Ps Ns ->|k Rd Nd Ps Ns ->|k Rd Nd Ps Ns ->].
  - open_plane Vss 0%nat. open_plane Vds 0%nat. open_slice Vsa 0%nat. open_slice Vda 0%nat.
    pose proof (rgb_rgb_w_as T m (bytes_per_pixel (i_pf src)) (bytes_per_pixel (i_pf dst)) k w h (i_planes src - 1) ss sa
      (i_planes dst - 1) ds da _ _ _ _ ((bytes_per_pixel (i_pf src) * w) mod usz T) ((bytes_per_pixel (i_pf dst) * w) mod usz T)
      ltac:(lia) ltac:(lia) Uw ltac:(mul) (mod_range _) ltac:(mul) (mod_range _) Hs Hb Hs0 Hb0 U U0 (Lr _ _ L) (Lr _ _ L0)) as Q.
    cbv zeta in Q. rewrite !E, !E0 in Q. rewrite Q.
    rewrite Rs, Rd. cbn [andb]. rewrite (taken_mod_rgb true src sb Rs), (taken_mod_rgb true dst db Rd). cbn [s_len].
    apply answers_if. rewrite andb_true_iff, !accepts_taken. reflexivity.
  - open_plane Vss 0%nat. open_slice Vsa 0%nat. open_plane Vds 0%nat. open_plane Vds 1%nat. open_plane Vds 2%nat.
    open_slice Vda 0%nat. open_slice Vda 1%nat. open_slice Vda 2%nat.
    pose proof (rgb_i4xx_w_as T m 1 (bytes_per_pixel (i_pf src)) k w h (i_planes src - 1) ss sa (i_planes dst - 1) ds da
      _ _ _ _ _ _ _ _ ((bytes_per_pixel (i_pf src) * w) mod usz T)
      ltac:(lia) ltac:(lia) ltac:(lia) ltac:(lia) Uw ltac:(mul) (mod_range _) Hs Hb Hs0 Hs1 Hs2 Hb0 Hb1 Hb2 U U0 U1 U2
      (Lr _ _ L) (Lr _ _ L0) (Lr _ _ L1) (Lr _ _ L2)) as Q.
    cbv zeta in Q. rewrite !E, !E0, !E1, !E2, !Z.div_1_r in Q. rewrite Q.
    rewrite Pd. cbn [is_rgb]. rewrite andb_false_r. rewrite (taken_mod_rgb false src sb Rs). cbn [s_len].
    apply answers_if. rewrite !andb_true_iff, !accepts_taken.
    unfold image_taken_mod, image_taken, image_planes. rewrite Pd. cbn [is_rgb andb planes].
    rewrite !Forall_cons_iff. cbn [g_buf g_stride g_rows g_row]. pose proof (Forall_nil (A := geom)). intuition.
  - cbn [valid_size] in *. rewrite Pd in Zd. destruct Zd as [We He].
    open_plane Vss 0%nat. open_slice Vsa 0%nat. open_plane Vds 0%nat. open_plane Vds 1%nat. open_plane Vds 2%nat.
    open_slice Vda 0%nat. open_slice Vda 1%nat. open_slice Vda 2%nat.
    pose proof (rgb_i4xx_w_as T m 2 (bytes_per_pixel (i_pf src)) k w h (i_planes src - 1) ss sa (i_planes dst - 1) ds da
      _ _ _ _ _ _ _ _ ((bytes_per_pixel (i_pf src) * w) mod usz T)
      ltac:(lia) ltac:(lia) ltac:(lia) ltac:(lia) Uw ltac:(mul) (mod_range _) Hs Hb Hs0 Hs1 Hs2 Hb0 Hb1 Hb2 U U0 U1 U2
      (Lr _ _ L) (Lr _ _ L0) (Lr _ _ L1) (Lr _ _ L2)) as Q.
    cbv zeta in Q. rewrite !E, !E0, !E1, !E2 in Q. rewrite Q.
    rewrite Pd. cbn [is_rgb]. rewrite andb_false_r. rewrite (taken_mod_rgb false src sb Rs). cbn [s_len].
    apply answers_if. rewrite !andb_true_iff, !accepts_taken.
    unfold image_taken_mod, image_taken, image_planes. rewrite Pd. cbn [is_rgb andb planes].
    rewrite !Forall_cons_iff. cbn [g_buf g_stride g_rows g_row]. pose proof (Forall_nil (A := geom)). intuition.
  - rewrite Pd in Zd. cbn [valid_size] in Zd. destruct Zd as [We He].
    open_plane Vss 0%nat. open_slice Vsa 0%nat. open_plane Vds 0%nat. open_slice Vda 0%nat.
    pose proof (luma_pos dst ds 0 Vds ltac:(lia)) as LP.
    destruct Nd as [Nd|Nd].
    + pose proof (rgb_nv12_w_as T m (bytes_per_pixel (i_pf src)) k w h (i_planes src - 1) ss sa 0 ds da _ _ _ _ _ _
        ((bytes_per_pixel (i_pf src) * w) mod usz T) ((eff_stride (i_strides dst) 0 w * h) mod usz T)
        ltac:(lia) ltac:(lia) Uw ltac:(mul) (mod_range _) Hs Hb Hs0 Hs0 Hb0 Hb0 U U0 U0 (Lr _ _ L) (Lr _ _ L0) (Lr _ _ L0)) as Q.
      cbv zeta in Q. rewrite !E, !E0 in Q.
      specialize (Q ltac:(intros _; split; [apply umul_mod; [exact LP|intros C; destruct (Ck C) as [C1 C2]; apply Z.nle_gt; intros X; apply C2; right; auto|lia]|apply mod_range])).
      unfold nv12_slices in Q. cbn [Z.eqb s_plane s_off s_len] in Q.
      rewrite Nd. change (1 - 1) with 0. rewrite Q.
      rewrite Pd. cbn [is_rgb]. rewrite andb_false_r. rewrite (taken_mod_rgb false src sb Rs).
      apply answers_if. rewrite !andb_true_iff, negb_true_iff, !accepts_taken.
      unfold image_taken_mod. rewrite Pd, Nd. cbn [is_rgb andb Z.eqb Pos.eqb]. cbv zeta. rewrite Z.ltb_ge. intuition.
    + open_plane Vds 1%nat. open_slice Vda 1%nat.
      pose proof (rgb_nv12_w_as T m (bytes_per_pixel (i_pf src)) k w h (i_planes src - 1) ss sa 1 ds da _ _ _ _ _ _
        ((bytes_per_pixel (i_pf src) * w) mod usz T) 0
        ltac:(lia) ltac:(lia) Uw ltac:(mul) (mod_range _) Hs Hb Hs0 Hs1 Hb0 Hb1 U U0 U1 (Lr _ _ L) (Lr _ _ L0) (Lr _ _ L1)) as Q.
      cbv zeta in Q. rewrite !E, !E0, !E1 in Q. specialize (Q ltac:(lia)).
      unfold nv12_slices in Q. cbn [Z.eqb s_plane s_off s_len andb negb] in Q.
      rewrite Nd. change (2 - 1) with 1. rewrite Q.
      rewrite Pd. cbn [is_rgb]. rewrite andb_false_r. rewrite (taken_mod_rgb false src sb Rs).
      apply answers_if. rewrite !andb_true_iff, !accepts_taken.
      unfold image_taken_mod, image_taken, image_planes. rewrite Pd, Nd. cbn [is_rgb andb planes Z.eqb Pos.eqb].
      rewrite !Forall_cons_iff. cbn [g_buf g_stride g_rows g_row]. pose proof (Forall_nil (A := geom)). intuition.
  - open_plane Vss 0%nat. open_plane Vss 1%nat. open_plane Vss 2%nat. open_slice Vsa 0%nat. open_slice Vsa 1%nat. open_slice Vsa 2%nat.
    open_plane Vds 0%nat. open_slice Vda 0%nat.
    pose proof (i4xx_rgb_w_as T m 1 (bytes_per_pixel (i_pf dst)) k w h (i_planes src - 1) ss sa (i_planes dst - 1) ds da
      _ _ _ _ _ _ _ _ ((bytes_per_pixel (i_pf dst) * w) mod usz T)
      ltac:(lia) ltac:(lia) ltac:(lia) ltac:(lia) Uw ltac:(mul) (mod_range _) Hs Hs0 Hs1 Hb Hb0 Hb1 Hs2 Hb2 U U0 U1 U2
      (Lr _ _ L) (Lr _ _ L0) (Lr _ _ L1) (Lr _ _ L2)) as Q.
    cbv zeta in Q. rewrite !E, !E0, !E1, !E2, !Z.div_1_r in Q. rewrite Q.
    rewrite Ps. cbn [is_rgb andb]. rewrite (taken_mod_rgb false dst db Rd). cbn [s_len].
    apply answers_if. rewrite !andb_true_iff, !accepts_taken.
    unfold image_taken_mod, image_taken, image_planes. rewrite Ps. cbn [is_rgb andb planes].
    rewrite !Forall_cons_iff. cbn [g_buf g_stride g_rows g_row]. pose proof (Forall_nil (A := geom)). intuition.
  - rewrite Ps in Zs. cbn [valid_size] in Zs. destruct Zs as [We He].
    open_plane Vss 0%nat. open_plane Vss 1%nat. open_plane Vss 2%nat. open_slice Vsa 0%nat. open_slice Vsa 1%nat. open_slice Vsa 2%nat.
    open_plane Vds 0%nat. open_slice Vda 0%nat.
    pose proof (i4xx_rgb_w_as T m 2 (bytes_per_pixel (i_pf dst)) k w h (i_planes src - 1) ss sa (i_planes dst - 1) ds da
      _ _ _ _ _ _ _ _ ((bytes_per_pixel (i_pf dst) * w) mod usz T)
      ltac:(lia) ltac:(lia) ltac:(lia) ltac:(lia) Uw ltac:(mul) (mod_range _) Hs Hs0 Hs1 Hb Hb0 Hb1 Hs2 Hb2 U U0 U1 U2
      (Lr _ _ L) (Lr _ _ L0) (Lr _ _ L1) (Lr _ _ L2)) as Q.
    cbv zeta in Q. rewrite !E, !E0, !E1, !E2 in Q. rewrite Q.
    rewrite Ps. cbn [is_rgb andb]. rewrite (taken_mod_rgb false dst db Rd). cbn [s_len].
    apply answers_if. rewrite !andb_true_iff, !accepts_taken.
    unfold image_taken_mod, image_taken, image_planes. rewrite Ps. cbn [is_rgb andb planes].
    rewrite !Forall_cons_iff. cbn [g_buf g_stride g_rows g_row]. pose proof (Forall_nil (A := geom)). intuition.
  - rewrite Ps in Zs. cbn [valid_size] in Zs. destruct Zs as [We He].
    open_plane Vss 0%nat. open_slice Vsa 0%nat. open_plane Vds 0%nat. open_slice Vda 0%nat.
    pose proof (luma_pos src ss 0 Vss ltac:(lia)) as LP.
    destruct Ns as [Ns|Ns].
    + pose proof (nv12_rgb_w_as T m (bytes_per_pixel (i_pf dst)) k w h 0 ss sa (i_planes dst - 1) ds da _ _ _ _ _ _
        ((bytes_per_pixel (i_pf dst) * w) mod usz T) ((eff_stride (i_strides src) 0 w * h) mod usz T)
        ltac:(lia) ltac:(lia) Uw ltac:(mul) (mod_range _) Hs Hs Hb Hb Hs0 Hb0 U U U0 (Lr _ _ L) (Lr _ _ L) (Lr _ _ L0)) as Q.
      cbv zeta in Q. rewrite !E, !E0 in Q.
      specialize (Q ltac:(intros _; split; [apply umul_mod; [exact LP|intros C; destruct (Ck C) as [C1 C2]; apply Z.nle_gt; intros X; apply C1; right; auto|lia]|apply mod_range])).
      unfold nv12_slices in Q. cbn [Z.eqb s_plane s_off s_len] in Q.
      rewrite Ns. change (1 - 1) with 0. rewrite Q.
      rewrite Ps. cbn [is_rgb andb]. rewrite (taken_mod_rgb false dst db Rd).
      apply answers_if. rewrite !andb_true_iff, negb_true_iff, !accepts_taken.
      unfold image_taken_mod. rewrite Ps, Ns. cbn [is_rgb andb Z.eqb Pos.eqb]. cbv zeta. rewrite Z.ltb_ge. intuition.
    + open_plane Vss 1%nat. open_slice Vsa 1%nat.
      pose proof (nv12_rgb_w_as T m (bytes_per_pixel (i_pf dst)) k w h 1 ss sa (i_planes dst - 1) ds da _ _ _ _ _ _
        ((bytes_per_pixel (i_pf dst) * w) mod usz T) 0
        ltac:(lia) ltac:(lia) Uw ltac:(mul) (mod_range _) Hs Hs1 Hb Hb1 Hs0 Hb0 U U1 U0 (Lr _ _ L) (Lr _ _ L1) (Lr _ _ L0)) as Q.
      cbv zeta in Q. rewrite !E, !E0, !E1 in Q. specialize (Q ltac:(lia)).
      unfold nv12_slices in Q. cbn [Z.eqb s_plane s_off s_len andb negb] in Q.
      rewrite Ns. change (2 - 1) with 1. rewrite Q.
      rewrite Ps. cbn [is_rgb andb]. rewrite (taken_mod_rgb false dst db Rd).
      apply answers_if. rewrite !andb_true_iff, !accepts_taken.
      unfold image_taken_mod, image_taken, image_planes. rewrite Ps, Ns. cbn [is_rgb andb planes Z.eqb Pos.eqb].
      rewrite !Forall_cons_iff. cbn [g_buf g_stride g_rows g_row]. pose proof (Forall_nil (A := geom)). intuition.
Qed.

Ltac stepo := first [erewrite bind_eq by (apply aidx_eq; eassumption) | erewrite bind_eq by (apply umul_eq; split; assumption)].
Ltac over := apply bind_over, umul_over; assumption.

Lemma large_rgb im : is_rgb (i_pf im) = true -> too_large (usz T) im w h -> usz T <= bytes_per_pixel (i_pf im) * w.
Proof. intros R [H|(E & _)]; [exact H|]. rewrite E in R. discriminate. Qed.
Lemma large_planar im : i_pf im = I444 \/ i_pf im = I420 -> ~ too_large (usz T) im w h.
Proof. pose proof usz_pos. intros E [H1|(E1 & _)]; [|destruct E; congruence]. destruct E as [E|E]; rewrite E in H1; cbn [bytes_per_pixel] in H1; lia. Qed.
Lemma large_nv12 im : i_pf im = Nv12 -> too_large (usz T) im w h -> i_planes im = 1 /\ usz T <= eff_stride (i_strides im) 0 w * h.
Proof. pose proof usz_pos. intros E [H1|(_ & N & L)]; [|auto]. rewrite E in H1. cbn [bytes_per_pixel] in H1. lia. Qed.

Lemma has_len {A} (a : arr A) i x : has a i x -> i < alen a /\ 0 <= i.
Proof. intros [[H1 H2] _]. lia. Qed.

Lemma wrapper_over (c : converter) m : shape src dst c -> checked T = true ->
  too_large (usz T) src w h \/ too_large (usz T) dst w h ->
  c w h (i_planes src - 1) ss sa (i_planes dst - 1) ds da T m = Fault Overflow.
Proof.
  intros Sh Ck Big. pose proof usz_pos as UP.
  assert (Z0 : (w =? 0) || (h =? 0) = false) by lia.
  destruct Sh as [k Rs Rd Ns Nd ->|k Rs Ns Pd Nd ->|k Rs Ns Pd Nd ->|k Rs Ns Pd Nd ->|k Rd Nd Ps Ns ->|k Rd Nd Ps Ns ->|k Rd Nd Ps Ns ->].
  - open_plane Vss 0%nat. open_plane Vds 0%nat. open_slice Vsa 0%nat. open_slice Vda 0%nat.
    pose proof (has_len _ _ _ Hs). pose proof (has_len _ _ _ Hs0). pose proof (has_len _ _ _ Hb). pose proof (has_len _ _ _ Hb0).
    unfold rgb_rgb_w. rewrite Z0. replace ((alen ss =? 0) || (alen sa =? 0) || (alen ds =? 0) || (alen da =? 0)) with false by lia.
    cbv zeta. pose proof (row_pos src Rs). pose proof (row_pos dst Rd). stepo.
    destruct (Z_lt_le_dec (bytes_per_pixel (i_pf src) * w) (usz T)); [|over].
    stepo. stepo. destruct Big as [Big|Big]; apply large_rgb in Big; auto; [lia|]. over.
  - open_plane Vss 0%nat. open_slice Vsa 0%nat. open_plane Vds 2%nat. open_slice Vda 2%nat.
    pose proof (has_len _ _ _ Hs). pose proof (has_len _ _ _ Hs0). pose proof (has_len _ _ _ Hb). pose proof (has_len _ _ _ Hb0).
    unfold rgb_i4xx_w. rewrite Z0. replace ((alen ss =? 0) || (alen sa =? 0) || (alen ds <? 3) || (alen da <? 3)) with false by lia.
    cbv zeta. destruct Big as [Big|Big]; [apply large_rgb in Big; auto; over|].
    exfalso. revert Big. apply large_planar. auto.
  - open_plane Vss 0%nat. open_slice Vsa 0%nat. open_plane Vds 2%nat. open_slice Vda 2%nat.
    pose proof (has_len _ _ _ Hs). pose proof (has_len _ _ _ Hs0). pose proof (has_len _ _ _ Hb). pose proof (has_len _ _ _ Hb0).
    unfold rgb_i4xx_w. rewrite Z0. replace ((alen ss =? 0) || (alen sa =? 0) || (alen ds <? 3) || (alen da <? 3)) with false by lia.
    cbv zeta. destruct Big as [Big|Big]; [apply large_rgb in Big; auto; over|].
    exfalso. revert Big. apply large_planar. auto.
  - assert (exists n, i_planes dst = Z.of_nat (S n)) as (n & En) by (exists (Z.to_nat (i_planes dst - 1)); lia).
    open_plane Vss 0%nat. open_slice Vsa 0%nat. open_plane Vds 0%nat. open_slice Vda 0%nat.
    destruct (Vds n ltac:(lia)) as (sn & Hsn & _ & _). destruct (Vda n ltac:(lia)) as (Hbn & _).
    pose proof (has_len _ _ _ Hs). pose proof (has_len _ _ _ Hsn). pose proof (has_len _ _ _ Hb). pose proof (has_len _ _ _ Hbn).
    assert (El : i_planes dst - 1 = Z.of_nat n) by lia.
    unfold rgb_nv12_w. rewrite Z0, El.
    replace ((alen ss =? 0) || (alen sa =? 0) || (alen ds <=? Z.of_nat n) || (alen da <=? Z.of_nat n)) with false by lia.
    cbv zeta. pose proof (row_pos src Rs).
    destruct (Z_lt_le_dec (bytes_per_pixel (i_pf src) * w) (usz T)); [|over].
    destruct Big as [Big|Big]; [apply large_rgb in Big; auto; lia|]. apply large_nv12 in Big; auto. destruct Big as [N1 Big].
    assert (n = 0%nat) as -> by lia. clear Hsn Hbn. change (Z.of_nat 0) with 0 in *.
    stepo. stepo. stepo. stepo. stepo. apply bind_over. cbn [Z.eqb]. stepo. rewrite E0. over.
  - open_plane Vss 2%nat. open_slice Vsa 2%nat. open_plane Vds 0%nat. open_slice Vda 0%nat.
    pose proof (has_len _ _ _ Hs). pose proof (has_len _ _ _ Hs0). pose proof (has_len _ _ _ Hb). pose proof (has_len _ _ _ Hb0).
    unfold i4xx_rgb_w. rewrite Z0. replace ((alen ss <? 3) || (alen sa <? 3) || (alen ds =? 0) || (alen da =? 0)) with false by lia.
    cbv zeta. destruct Big as [Big|Big]; [|apply large_rgb in Big; auto; over].
    exfalso. revert Big. apply large_planar. auto.
  - open_plane Vss 2%nat. open_slice Vsa 2%nat. open_plane Vds 0%nat. open_slice Vda 0%nat.
    pose proof (has_len _ _ _ Hs). pose proof (has_len _ _ _ Hs0). pose proof (has_len _ _ _ Hb). pose proof (has_len _ _ _ Hb0).
    unfold i4xx_rgb_w. rewrite Z0. replace ((alen ss <? 3) || (alen sa <? 3) || (alen ds =? 0) || (alen da =? 0)) with false by lia.
    cbv zeta. destruct Big as [Big|Big]; [|apply large_rgb in Big; auto; over].
    exfalso. revert Big. apply large_planar. auto.
  - assert (exists n, i_planes src = Z.of_nat (S n)) as (n & En) by (exists (Z.to_nat (i_planes src - 1)); lia).
    open_plane Vss 0%nat. open_slice Vsa 0%nat. open_plane Vds 0%nat. open_slice Vda 0%nat.
    destruct (Vss n ltac:(lia)) as (sn & Hsn & _ & _). destruct (Vsa n ltac:(lia)) as (Hbn & _).
    pose proof (has_len _ _ _ Hs0). pose proof (has_len _ _ _ Hsn). pose proof (has_len _ _ _ Hb0). pose proof (has_len _ _ _ Hbn).
    assert (El : i_planes src - 1 = Z.of_nat n) by lia.
    unfold nv12_rgb_w. rewrite Z0, El.
    replace ((alen ss <=? Z.of_nat n) || (alen sa <=? Z.of_nat n) || (alen ds =? 0) || (alen da =? 0)) with false by lia.
    cbv zeta. pose proof (row_pos dst Rd).
    destruct (Z_lt_le_dec (bytes_per_pixel (i_pf dst) * w) (usz T)); [|over].
    destruct Big as [Big|Big]; [|apply large_rgb in Big; auto; lia]. apply large_nv12 in Big; auto. destruct Big as [N1 Big].
    assert (n = 0%nat) as -> by lia. clear Hsn Hbn. change (Z.of_nat 0) with 0 in *.
    stepo. stepo. stepo. stepo. stepo. stepo. apply bind_over. cbn [Z.eqb]. rewrite E. over.
Qed.
End Call.

(** ** The whole call *)
Lemma call_with set T w h src dst sb db : is_target T -> well_formed (usz T) w h src dst sb db ->
  valid_image src w h -> valid_image dst w h -> supported (i_pf src) (i_pf dst) = true ->
  convert (converters set) T w h src dst sb db =
  (ok <- converters set (conv_of (i_pf src) (i_pf dst) (i_cs src) (i_cs dst)) w h (i_planes src - 1)
           (strides_or_default (option_map arr_of (i_strides src))) (arr_of (rust_slices Src sb)) (i_planes dst - 1)
           (strides_or_default (option_map arr_of (i_strides dst))) (arr_of (rust_slices Dst db)) ;;
   ret (if ok then Success else Err NotEnoughData)) T (Mem sb db).
Proof.
  intros HT HW Vs Vd Hs. destruct (format_planes_u32 _ _ _ _ _ _ _ HW) as [Us Ud].
  destruct (convert_image_cases (converters set) w h src (option_map arr_of (i_strides src)) (arr_of (rust_slices Src sb))
    dst (option_map arr_of (i_strides dst)) (arr_of (rust_slices Dst db)) T (Mem sb db) Us Ud) as [[N _]|[(_ & _ & N & _)|(_ & _ & _ & E)]];
    [tauto|congruence|].
  unfold convert. rewrite E. unfold call_converter.
  rewrite (u32_planes _ _ (proj1 (proj2 Vs))), (u32_planes _ _ (proj1 (proj2 Vd))). reflexivity.
Qed.

Lemma wrapped_answer set T w h src dst sb db : is_target T -> well_formed (usz T) w h src dst sb db -> 0 < w -> 0 < h ->
  valid_image src w h -> valid_image dst w h -> supported (i_pf src) (i_pf dst) = true ->
  let r := convert (converters set) T w h src dst sb db in
  let large := too_large (usz T) src w h \/ too_large (usz T) dst w h in
  (checked T = true -> large -> enough_planes src sb -> enough_planes dst db -> r = Fault Overflow) /\
  ((checked T = true -> ~ large) ->
   (r = Ok (Err NotEnoughData) (Mem sb db) <-> ~ buffers_taken_mod (usz T) src dst w h sb db)).
Proof.
  intros HT HW W0 H0 Vs Vd Hsup r large.
  pose proof (isize_usz T HT) as (I0 & I1 & I2).
  pose proof HW as (Hw & Hh & _ & _ & Ss & Sd & Bs & Bd).
  change (usz T / 2 - 1) with (isize_max T) in Bs, Bd.
  pose proof (buffers_ok_le (isize_max T) (isize_max T + 8) sb ltac:(lia) Bs) as Bs'.
  pose proof (buffers_ok_le (isize_max T) (isize_max T + 8) db ltac:(lia) Bd) as Bd'.
  pose proof (converter_shape T _ _ _ (set_ok set T) w h src dst Vs Vd Hsup) as Sh.
  pose proof (call_with set T w h src dst sb db HT HW Vs Vd Hsup) as Er. fold r in Er.
  assert (Hdec : forall im bufs, {enough_planes im bufs} + {~ enough_planes im bufs}).
  { intros im bufs. unfold enough_planes.
    destruct (Z_le_dec (i_planes im) (Z.of_nat (length bufs))); [|right; tauto].
    destruct (i_strides im) as [l0|]; [|left; tauto].
    destruct (Z_le_dec (i_planes im) (Z.of_nat (length l0))); [left|right]; tauto. }
  assert (Hen : (enough_planes src sb /\ enough_planes dst db) \/ ~ (enough_planes src sb /\ enough_planes dst db)).
  { destruct (Hdec src sb), (Hdec dst db); tauto. }
  destruct Hen as [[Es Ed]|Hen].
  - pose proof (strides_view_rust T src sb HT (proj1 (proj2 Vs)) Es Ss) as V1.
    pose proof (strides_view_rust T dst db HT (proj1 (proj2 Vd)) Ed Sd) as V2.
    pose proof (slices_view_rust T Src sb _ HT (proj1 Es) Bs') as V3.
    pose proof (slices_view_rust T Dst db _ HT (proj1 Ed) Bd') as V4.
    split.
    + intros C L _ _. rewrite Er. apply bind_over.
      exact (wrapper_over T HT w h ltac:(lia) ltac:(lia) src dst _ _ _ _ sb db V1 V2 V3 V4 _ _ Sh C L).
    + intros C. destruct (wrapper_mod T HT w h ltac:(lia) ltac:(lia) src dst _ _ _ _ sb db V1 V2 V3 V4 Vs Vd _ (Mem sb db) Sh) as [Y N].
      { intros K. specialize (C K). unfold large in C. tauto. }
      unfold buffers_taken_mod. cbv zeta. split.
      * intros R (_ & _ & Tk). destruct (Y Tk) as [k Ek]. rewrite Er in R. unfold bind in R at 1. cbn [run] in R.
        rewrite Ek in R. unfold bind, ret in R. cbn [run] in R. destruct (k T (Mem sb db)); cbv beta iota in R; discriminate.
      * intros Nt. rewrite Er. erewrite bind_eq; [|apply N; tauto]. reflexivity.
  - split; [tauto|]. intros _. split; [unfold buffers_taken_mod; tauto|]. intros _. rewrite Er.
    erewrite bind_eq; [|apply (converter_short T _ _ _ (set_ok set T) w h src dst); auto; try lia].
    + reflexivity.
    + apply strides_alen.
    + rewrite rust_alen. lia.
    + apply strides_alen.
    + rewrite rust_alen. lia.
    + rewrite !rust_alen.
      destruct Vs as (_ & Ns & _), Vd as (_ & Nd & _). apply valid_planes_le in Ns, Nd.
      unfold enough_planes in Hen.
      destruct (i_strides src), (i_strides dst); cbn [option_map strides_or_default arr_of alen] in *;
        unfold zlen in *; change (length DEFAULT_STRIDES) with 4%nat; lia.
Qed.

(** Without large rows and planes nothing is reduced. *)
Lemma taken_mod_small M packed im w h bufs : 0 <= w -> 0 <= h -> 0 < M -> strides_below M im ->
  ~ too_large M im w h -> (image_taken_mod M packed im w h bufs <-> image_taken packed im w h bufs).
Proof.
  intros W H P Sb N. unfold image_taken_mod, image_taken, too_large in *.
  assert (B : 0 <= bytes_per_pixel (i_pf im)) by (destruct (i_pf im); cbn; lia).
  assert (R : 0 <= bytes_per_pixel (i_pf im) * w < M) by (split; [nia|lia]).
  destruct (is_rgb (i_pf im)) eqn:Rg.
  - rewrite (Z.mod_small _ _ R). unfold image_planes.
    destruct (i_pf im); try discriminate; cbn [andb planes]; rewrite Forall_cons_iff; cbn [g_buf g_stride g_rows g_row];
      pose proof (Forall_nil (A := geom)); intuition.
  - destruct (i_pf im) eqn:Pf; try discriminate; cbn [andb]; try reflexivity.
    destruct (i_planes im =? 1) eqn:E; [|reflexivity]. cbv zeta.
    rewrite Z.mod_small; [reflexivity|]. split; [|destruct (Z_lt_le_dec (eff_stride (i_strides im) 0 w * h) M); [assumption|exfalso; apply N; right; repeat split; auto; lia]].
    apply Z.mul_nonneg_nonneg; [|exact H]. unfold eff_stride. unfold strides_below in Sb. destruct (i_strides im) as [l|]; [|exact W].
    destruct (nth 0 l 0 =? 0) eqn:E0; [exact W|]. destruct l as [|x l]; [discriminate|]. inversion_clear Sb. cbn [nth]. lia.
Qed.

Lemma buffers_taken_small T w h src dst sb db : is_target T -> well_formed (usz T) w h src dst sb db ->
  ~ too_large (usz T) src w h -> ~ too_large (usz T) dst w h ->
  (buffers_taken_mod (usz T) src dst w h sb db <-> buffers_taken src dst w h sb db).
Proof.
  intros HT (Hw & Hh & _ & _ & Ss & Sd & _) N1 N2.
  assert (0 < usz T) by (destruct HT as [[-> _]|[-> _]]; lia).
  unfold buffers_taken_mod, buffers_taken. cbv zeta. rewrite !taken_mod_small by (auto; lia). reflexivity.
Qed.

Lemma exact_any_word set T w h src dst sb db : is_target T -> well_formed (usz T) w h src dst sb db -> 0 < w -> 0 < h ->
  ~ too_large (usz T) src w h -> ~ too_large (usz T) dst w h ->
  valid_image src w h -> valid_image dst w h -> supported (i_pf src) (i_pf dst) = true ->
  (convert (converters set) T w h src dst sb db = Ok (Err NotEnoughData) (Mem sb db) <->
   ~ buffers_taken src dst w h sb db).
Proof.
  intros HT HW W0 H0 N1 N2 Vs Vd Hs. rewrite <- (buffers_taken_small T w h src dst sb db HT HW N1 N2).
  apply (wrapped_answer set T w h src dst sb db HT HW W0 H0 Vs Vd Hs). tauto.
Qed.
