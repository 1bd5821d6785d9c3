(** Correctness of [convert_image], for any set of correct kernels. *)
From Coq Require Import ZArith List Bool Lia ZifyBool ZifyNat.
Import ListNotations.
From Verif Require Import Base Exec Area Fmt Common Scalar Wrappers Lib Spec ApiSpec Api PixelFacts
  KernelBase ForwardProofs BackwardProofs ReorderProofs WrapperFacts ConvProofs LibFacts.
Open Scope Z_scope.
Ltac Zify.zify_post_hook ::= Z.div_mod_to_equations.

(** The converters of one instruction set are the wrappers applied to correct
    kernels. [slack dst smp w] is the number of bytes the RGB to YCbCr kernels may
    read after the last pixel. *)
Record impl_ok (T : target) (A : pixel_format -> pixel_format -> Z -> columns) (slack : pixel_format -> sampler -> Z -> Z)
       (impl : conv -> converter) : Prop := {
  io_nv12 : forall smp c, exists k,
    impl (Rgb_yuv (kfmt smp) Nv12 (cs_of c)) = rgb_nv12_w (sampler_depth smp) k /\
    k12_ok T (A (kfmt smp) Nv12) (slack Nv12 smp) smp c k;
  io_i420 : forall smp c, exists k,
    impl (Rgb_yuv (kfmt smp) I420 (cs_of c)) = rgb_i4xx_w 2 (sampler_depth smp) k /\
    k420_ok T (A (kfmt smp) I420) (slack I420 smp) smp c k;
  io_i444 : forall smp c, exists k,
    impl (Rgb_yuv (kfmt smp) I444 (cs_of c)) = rgb_i4xx_w 1 (sampler_depth smp) k /\
    k444_ok T (A (kfmt smp) I444) (slack I444 smp) smp c k;
  io_nv12r : forall pf c, supported Nv12 pf = true -> exists k,
    impl (Yuv_rgb Nv12 (cs_of c) pf) = nv12_rgb_w (bytes_per_pixel pf) k /\ k21_ok T (A Nv12 pf) pf c k;
  io_i420r : forall pf c, supported I420 pf = true -> exists k,
    impl (Yuv_rgb I420 (cs_of c) pf) = i4xx_rgb_w 2 (bytes_per_pixel pf) k /\ k420r_ok T (A I420 pf) pf c k;
  io_i444r : forall pf c, supported I444 pf = true -> exists k,
    impl (Yuv_rgb I444 (cs_of c) pf) = i4xx_rgb_w 1 (bytes_per_pixel pf) k /\ k444r_ok T (A I444 pf) pf c k;
  io_rgb : forall spf dpf, is_rgb spf = true -> is_rgb dpf = true -> supported spf dpf = true -> exists k,
    impl (Rgb_rgb spf dpf) = rgb_rgb_w (bytes_per_pixel spf) (bytes_per_pixel dpf) k /\
    k11_ok T (slack dpf (sampler_of spf)) spf dpf k /\ (forall w, -1 <= slack dpf (sampler_of spf) w) }.

(** ** The scalar converters *)
Definition spec_all : pixel_format -> pixel_format -> Z -> columns := fun _ _ _ => spec_cols.
(** The scalar kernels do not read the alpha of the last BGRA pixel, except in the
    blocks of eight pixels of the re-ordering to RGB. *)
Definition x86_slack (dpf : pixel_format) (smp : sampler) (w : Z) : Z :=
  if is_rgb dpf then tail (sampler_depth smp) w else spare smp.

Lemma colorimetry_cs c : colorimetry_of (cs_of c) = c.
Proof. destruct c; reflexivity. Qed.
Lemma sampler_kfmt smp : sampler_of (kfmt smp) = smp.
Proof. destruct smp; reflexivity. Qed.
Lemma pf_depth_kfmt smp : pf_depth (kfmt smp) = sampler_depth smp.
Proof. destruct smp; reflexivity. Qed.

Theorem x86_ok T : impl_ok T spec_all x86_slack x86_converter.
Proof.
  split.
  - intros smp c. eexists. split.
    + cbn [x86_converter]. unfold x86_rgb_nv12. rewrite colorimetry_cs, sampler_kfmt, pf_depth_kfmt. reflexivity.
    + red. intros. eapply runs_rgb_to_nv12; eauto.
  - intros smp c. eexists. split.
    + cbn [x86_converter]. unfold x86_rgb_i420. rewrite colorimetry_cs, sampler_kfmt, pf_depth_kfmt. reflexivity.
    + red. intros. eapply runs_rgb_to_i420; eauto.
  - intros smp c. eexists. split.
    + cbn [x86_converter]. unfold x86_rgb_i444. rewrite colorimetry_cs, sampler_kfmt, pf_depth_kfmt. reflexivity.
    + red. intros. eapply runs_rgb_to_i444; eauto.
  - intros pf c Hp. cbn [x86_converter]. unfold x86_nv12_rgb. rewrite colorimetry_cs.
    destruct pf; try discriminate; (eexists; split; [reflexivity|]); red; intros;
      cbn [pf_depth pf_reversed Z.eqb Pos.eqb].
    + exact (runs_nv12_to_bgra T ms dl H c false w h cw ch ybuf ys uvbuf uvs dst n ds H2 H3 H4 H5 H6 H7 H8 H9).
    + exact (runs_nv12_to_bgra T ms dl H c true w h cw ch ybuf ys uvbuf uvs dst n ds H2 H3 H4 H5 H6 H7 H8 H9).
    + exact (runs_nv12_to_rgb T ms dl H c w h cw ch ybuf ys uvbuf uvs dst n ds H2 H3 H4 H5 H6 H7 H8 H9).
  - intros pf c Hp. cbn [x86_converter]. unfold x86_i420_rgb. rewrite colorimetry_cs.
    destruct pf; try discriminate; (eexists; split; [reflexivity|]); red; intros;
      cbn [pf_depth pf_reversed].
    + eapply (runs_i420_to_bgra T ms dl H c false); eauto.
    + eapply (runs_i420_to_bgra T ms dl H c true); eauto.
  - intros pf c Hp. cbn [x86_converter]. unfold x86_i444_rgb. rewrite colorimetry_cs.
    destruct pf; try discriminate; (eexists; split; [reflexivity|]); red; intros;
      cbn [pf_depth pf_reversed].
    + eapply (runs_i444_to_bgra T ms dl H c false); eauto.
    + eapply (runs_i444_to_bgra T ms dl H c true); eauto.
  - intros spf dpf Hs Hd Hp.
    destruct spf, dpf; try discriminate;
      (eexists; split; [reflexivity|]; split; [red; intros|
        intros w; unfold x86_slack, tail; cbn [is_rgb sampler_of sampler_depth Z.eqb Pos.eqb andb]; try lia;
        destruct (negb (w mod 8 =? 0)); lia]);
      cbn [bytes_per_pixel] in *; unfold x86_slack in *; cbn [is_rgb sampler_of sampler_depth] in *;
      try change (tail 3 w) with 0 in *; rewrite ?Z.add_0_r in *.
    + eapply runs_bgra_to_rgb; eauto; try lia; nia.
    + eapply runs_bgr_to_rgb; eauto; try lia; nia.
    + eapply runs_rgb_to_bgra; eauto; try lia; nia.
Qed.

(** ** Correctness of the converters *)
Definition both_rgb (src dst : image) : bool := is_rgb (i_pf src) && is_rgb (i_pf dst).

Definition slack_of (slack : pixel_format -> sampler -> Z -> Z) (src dst : image) (w : Z) : Z :=
  if is_rgb (i_pf src) then slack (i_pf dst) (sampler_of (i_pf src)) w else 0.

(** No row size and no plane size overflows usize. *)
Definition no_overflow (T : target) (im : image) (w h : Z) : Prop :=
  bytes_per_pixel (i_pf im) * w < usz T /\
  (i_pf im = Nv12 -> i_planes im = 1 -> eff_stride (i_strides im) 0 w * h < usz T).

Lemma cs_of_colorimetry cs : cs <> CsRgb -> exists c, cs = cs_of c.
Proof. destruct cs; intros; [congruence|exists C601|exists C709|exists C601FR|exists C709FR]; reflexivity. Qed.

Section Call.
Variable T : target.
Hypothesis HT : is_target T.
Variable A : pixel_format -> pixel_format -> Z -> columns.
Variable slack : pixel_format -> sampler -> Z -> Z.
Variable impl : conv -> converter.
Hypothesis HI : impl_ok T A slack impl.

Lemma converter_ok ms ds0 w h src dst ss ds sb db sl dln :
  bytes_ok ms -> 0 < w < usz T -> 0 < h < usz T ->
  strides_view T ss (i_strides src) (i_planes src) ->
  strides_view T ds (i_strides dst) (i_planes dst) ->
  slices_view T sb Src ms sl (i_planes src) ->
  slices_view T db Dst ds0 dln (i_planes dst) ->
  valid_image src w h -> valid_image dst w h -> supported (i_pf src) (i_pf dst) = true ->
  no_overflow T src w h -> no_overflow T dst w h ->
  (both_rgb src dst = true -> sl 0%nat <= isize_max T /\ dln 0%nat <= isize_max T) ->
  conv_ok T ms ds0 w h src dst ss ds sb db sl dln (both_rgb src dst) (A (i_pf src) (i_pf dst) w) (slack_of slack src dst w)
    (impl (conv_of (i_pf src) (i_pf dst) (i_cs src) (i_cs dst))).
Proof.
  intros HB Hw Hh Hss Hds Hsb Hdb (Cs & Ns & Zs) (Cd & Nd & Zd) Hsup (Os & Os') (Od & Od') Hlim.
  unfold valid_colors in *. unfold both_rgb, slack_of in *.
  assert (RYUV : is_rgb (i_pf src) = false -> i_cs src <> CsRgb).
  { intros E F. apply Cs in F. congruence. }
  assert (DYUV : is_rgb (i_pf dst) = false -> i_cs dst <> CsRgb).
  { intros E F. apply Cd in F. congruence. }
  assert (FWD : is_rgb (i_pf dst) = false -> exists smp, i_pf src = kfmt smp).
  { intros E. destruct (i_pf src) eqn:Ps, (i_pf dst) eqn:Pd; try discriminate;
      [exists S_Argb|exists S_Argb|exists S_Argb|exists S_Bgra|exists S_Bgra|exists S_Bgra
      |exists S_Bgr|exists S_Bgr|exists S_Bgr]; reflexivity. }
  destruct (is_rgb (i_pf dst)) eqn:Rd.
  - (* to RGB *)
    destruct (is_rgb (i_pf src)) eqn:Rs; cbn [andb]; unfold conv_of; rewrite ?Rs, ?Rd.
    + destruct (io_rgb T A slack impl HI (i_pf src) (i_pf dst) Rs Rd Hsup) as (k & -> & K & Kb).
      apply rgb_rgb_conv; auto.
      * revert Ns. destruct (i_pf src); try discriminate; auto.
      * revert Nd. destruct (i_pf dst); try discriminate; auto.
      * apply Hlim. reflexivity.
      * apply Hlim. reflexivity.
    + destruct (cs_of_colorimetry _ (RYUV eq_refl)) as [c Ec]. rewrite Ec.
      assert (Nd1 : i_planes dst = 1) by (revert Nd; destruct (i_pf dst); try discriminate; auto).
      destruct (i_pf src) eqn:Ps; try discriminate.
      * destruct (io_i444r T A slack impl HI (i_pf dst) c Hsup) as (k & -> & K).
        eapply i4xx_rgb_conv; eauto.
      * destruct (io_i420r T A slack impl HI (i_pf dst) c Hsup) as (k & -> & K).
        cbn [valid_size] in Zs. destruct Zs. eapply i4xx_rgb_conv; eauto 9.
      * destruct (io_nv12r T A slack impl HI (i_pf dst) c Hsup) as (k & -> & K).
        cbn [valid_size valid_num_planes] in *. eapply nv12_rgb_conv; eauto; tauto.
  - (* to YCbCr *)
    destruct (FWD eq_refl) as [smp Ps]. rewrite Ps.
    destruct (cs_of_colorimetry _ (DYUV eq_refl)) as [c Ec].
    rewrite andb_false_r. unfold conv_of. rewrite sampler_kfmt, Rd, Ec.
    assert (Ns1 : i_planes src = 1) by (revert Ns; rewrite Ps; destruct smp; auto).
    replace (is_rgb (kfmt smp)) with true by (destruct smp; reflexivity).
    rewrite Ps, <- depth_kfmt in Os.
    destruct (i_pf dst) eqn:Pd; try discriminate.
    + destruct (io_i444 T A slack impl HI smp c) as (k & -> & K).
      eapply rgb_i444_conv; eauto.
    + exfalso. rewrite Ps in Hsup. destruct smp; discriminate.
    + destruct (io_i420 T A slack impl HI smp c) as (k & -> & K).
      cbn [valid_size] in Zd. eapply rgb_i420_conv; eauto; tauto.
    + destruct (io_nv12 T A slack impl HI smp c) as (k & -> & K).
      cbn [valid_size valid_num_planes] in *. eapply rgb_nv12_conv; eauto; tauto.
Qed.

(** ** Refusals *)

(** Images without any pixel: nothing to do. *)
Lemma converter_empty w h src dst ss ds sb db m :
  w = 0 \/ h = 0 ->
  valid_image src w h -> valid_image dst w h -> supported (i_pf src) (i_pf dst) = true ->
  forall lsp ldp,
  impl (conv_of (i_pf src) (i_pf dst) (i_cs src) (i_cs dst)) w h lsp ss sb ldp ds db T m = Ok true m.
Proof.
  intros H0 (Cs & Ns & Zs) (Cd & Nd & Zd) Hsup lsp ldp.
  unfold valid_colors in *.
  assert (RYUV : is_rgb (i_pf src) = false -> i_cs src <> CsRgb).
  { intros E F. apply Cs in F. congruence. }
  assert (DYUV : is_rgb (i_pf dst) = false -> i_cs dst <> CsRgb).
  { intros E F. apply Cd in F. congruence. }
  assert (FWD : is_rgb (i_pf dst) = false -> exists smp, i_pf src = kfmt smp).
  { intros E. destruct (i_pf src) eqn:Ps, (i_pf dst) eqn:Pd; try discriminate;
      [exists S_Argb|exists S_Argb|exists S_Argb|exists S_Bgra|exists S_Bgra|exists S_Bgra
      |exists S_Bgr|exists S_Bgr|exists S_Bgr]; reflexivity. }
  assert (E0 : (w =? 0) || (h =? 0) = true) by lia.
  destruct (is_rgb (i_pf dst)) eqn:Rd.
  - destruct (is_rgb (i_pf src)) eqn:Rs; unfold conv_of; rewrite ?Rs, ?Rd.
    + destruct (io_rgb T A slack impl HI (i_pf src) (i_pf dst) Rs Rd Hsup) as (k & -> & K).
      unfold rgb_rgb_w. rewrite E0. reflexivity.
    + destruct (cs_of_colorimetry _ (RYUV eq_refl)) as [c Ec]. rewrite Ec.
      destruct (i_pf src) eqn:Ps; try discriminate.
      * destruct (io_i444r T A slack impl HI (i_pf dst) c Hsup) as (k & -> & K).
        unfold i4xx_rgb_w. rewrite E0. reflexivity.
      * destruct (io_i420r T A slack impl HI (i_pf dst) c Hsup) as (k & -> & K).
        unfold i4xx_rgb_w. rewrite E0. reflexivity.
      * destruct (io_nv12r T A slack impl HI (i_pf dst) c Hsup) as (k & -> & K).
        unfold nv12_rgb_w. rewrite E0. reflexivity.
  - destruct (FWD eq_refl) as [smp Ps]. rewrite Ps.
    destruct (cs_of_colorimetry _ (DYUV eq_refl)) as [c Ec].
    unfold conv_of. rewrite Rd, Ec.
    replace (is_rgb (kfmt smp)) with true by (destruct smp; reflexivity).
    destruct (i_pf dst) eqn:Pd; try discriminate.
    + destruct (io_i444 T A slack impl HI smp c) as (k & -> & K).
      unfold rgb_i4xx_w. rewrite E0. reflexivity.
    + exfalso. rewrite Ps in Hsup. destruct smp; discriminate.
    + destruct (io_i420 T A slack impl HI smp c) as (k & -> & K).
      unfold rgb_i4xx_w. rewrite E0. reflexivity.
    + destruct (io_nv12 T A slack impl HI smp c) as (k & -> & K).
      unfold rgb_nv12_w. rewrite E0. reflexivity.
Qed.

(** Fewer strides or buffers than planes. *)
Lemma converter_short w h src dst ss ds sb db m :
  w <> 0 -> h <> 0 ->
  valid_image src w h -> valid_image dst w h -> supported (i_pf src) (i_pf dst) = true ->
  0 <= alen ss -> 0 <= alen sb -> 0 <= alen ds -> 0 <= alen db ->
  alen ss < i_planes src \/ alen sb < i_planes src \/ alen ds < i_planes dst \/ alen db < i_planes dst ->
  impl (conv_of (i_pf src) (i_pf dst) (i_cs src) (i_cs dst)) w h (i_planes src - 1) ss sb
    (i_planes dst - 1) ds db T m = Ok false m.
Proof.
  intros Hw Hh (Cs & Ns & Zs) (Cd & Nd & Zd) Hsup P1 P2 P3 P4 Hshort.
  unfold valid_colors in *.
  assert (RYUV : is_rgb (i_pf src) = false -> i_cs src <> CsRgb).
  { intros E F. apply Cs in F. congruence. }
  assert (DYUV : is_rgb (i_pf dst) = false -> i_cs dst <> CsRgb).
  { intros E F. apply Cd in F. congruence. }
  assert (FWD : is_rgb (i_pf dst) = false -> exists smp, i_pf src = kfmt smp).
  { intros E. destruct (i_pf src) eqn:Ps, (i_pf dst) eqn:Pd; try discriminate;
      [exists S_Argb|exists S_Argb|exists S_Argb|exists S_Bgra|exists S_Bgra|exists S_Bgra
      |exists S_Bgr|exists S_Bgr|exists S_Bgr]; reflexivity. }
  assert (E0 : (w =? 0) || (h =? 0) = false) by lia.
  destruct (is_rgb (i_pf dst)) eqn:Rd.
  - assert (Nd1 : i_planes dst = 1) by (revert Nd; destruct (i_pf dst); try discriminate; auto).
    destruct (is_rgb (i_pf src)) eqn:Rs; unfold conv_of; rewrite ?Rs, ?Rd.
    + assert (Ns1 : i_planes src = 1) by (revert Ns; destruct (i_pf src); try discriminate; auto).
      destruct (io_rgb T A slack impl HI (i_pf src) (i_pf dst) Rs Rd Hsup) as (k & -> & K).
      unfold rgb_rgb_w. rewrite E0.
      replace ((alen ss =? 0) || (alen sb =? 0) || (alen ds =? 0) || (alen db =? 0)) with true by lia.
      reflexivity.
    + destruct (cs_of_colorimetry _ (RYUV eq_refl)) as [c Ec]. rewrite Ec.
      destruct (i_pf src) eqn:Ps; try discriminate; cbn [valid_num_planes] in Ns.
      * destruct (io_i444r T A slack impl HI (i_pf dst) c Hsup) as (k & -> & K).
        unfold i4xx_rgb_w. rewrite E0.
        replace ((alen ss <? 3) || (alen sb <? 3) || (alen ds =? 0) || (alen db =? 0)) with true by lia.
        reflexivity.
      * destruct (io_i420r T A slack impl HI (i_pf dst) c Hsup) as (k & -> & K).
        unfold i4xx_rgb_w. rewrite E0.
        replace ((alen ss <? 3) || (alen sb <? 3) || (alen ds =? 0) || (alen db =? 0)) with true by lia.
        reflexivity.
      * destruct (io_nv12r T A slack impl HI (i_pf dst) c Hsup) as (k & -> & K).
        unfold nv12_rgb_w. rewrite E0.
        replace ((alen ss <=? i_planes src - 1) || (alen sb <=? i_planes src - 1) || (alen ds =? 0) || (alen db =? 0))
          with true by lia.
        reflexivity.
  - destruct (FWD eq_refl) as [smp Ps]. rewrite Ps.
    destruct (cs_of_colorimetry _ (DYUV eq_refl)) as [c Ec].
    unfold conv_of. rewrite Rd, Ec.
    assert (Ns1 : i_planes src = 1) by (revert Ns; rewrite Ps; destruct smp; auto).
    replace (is_rgb (kfmt smp)) with true by (destruct smp; reflexivity).
    destruct (i_pf dst) eqn:Pd; try discriminate; cbn [valid_num_planes] in Nd.
    + destruct (io_i444 T A slack impl HI smp c) as (k & -> & K).
      unfold rgb_i4xx_w. rewrite E0.
      replace ((alen ss =? 0) || (alen sb =? 0) || (alen ds <? 3) || (alen db <? 3)) with true by lia.
      reflexivity.
    + exfalso. rewrite Ps in Hsup. destruct smp; discriminate.
    + destruct (io_i420 T A slack impl HI smp c) as (k & -> & K).
      unfold rgb_i4xx_w. rewrite E0.
      replace ((alen ss =? 0) || (alen sb =? 0) || (alen ds <? 3) || (alen db <? 3)) with true by lia.
      reflexivity.
    + destruct (io_nv12 T A slack impl HI smp c) as (k & -> & K).
      unfold rgb_nv12_w. rewrite E0.
      replace ((alen ss =? 0) || (alen sb =? 0) || (alen ds <=? i_planes dst - 1) || (alen db <=? i_planes dst - 1))
        with true by lia.
      reflexivity.
Qed.
End Call.

