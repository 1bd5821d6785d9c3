(** The converters of every instruction set are correct. *)
From Coq Require Import ZArith List Bool Lia ZifyBool ZifyNat.
Import ListNotations.
From Verif Require Import Base Exec Area Fmt CpuInfo Common Scalar Wrappers Vector Lib Sets Spec SimdSpec SetSpec
  ApiSpec Api PixelFacts KernelBase ForwardProofs BackwardProofs ReorderProofs VecForward VecBackward VecReorder
  WrapperFacts ConvProofs HybridFacts LibFacts ApiProofs.
From Verif Require Sse2 Avx2 Neon Sse2Forward Avx2Forward NeonForward Sse2Backward Avx2Backward
  Sse2Reorder Avx2Reorder NeonReorder.
Open Scope Z_scope.
Ltac Zify.zify_post_hook ::= Z.div_mod_to_equations.

(** ** Vector parts *)

Lemma lower_pot_div w k : 0 <= w -> 0 <= k -> lower_multiple_of_pot w (2 ^ k) = 2 ^ k * (w / 2 ^ k).
Proof.
  intros Hw Hk. destruct (Avx2Reorder.lower_pot w k Hw Hk) as (m & -> & Hm & B). f_equal.
  apply (Z.div_unique w (2 ^ k) m (w - 2 ^ k * m)); lia.
Qed.

Lemma vp_pot k : 0 <= k -> vp_ok (2 ^ k) (fun w => lower_multiple_of_pot w (2 ^ k)).
Proof.
  intros Hk w Hw. destruct (Avx2Reorder.lower_pot w k Hw Hk) as (m & E & Hm & B).
  exists m. split; [exact E|]. lia.
Qed.

Lemma vp_fwd k depth : 0 <= k -> vp_ok (2 ^ k) (fwd_vector_part (2 ^ k) depth).
Proof.
  intros Hk w Hw. unfold fwd_vector_part. destruct (Z.eqb_spec depth 3) as [->|_].
  - pose proof (Z.pow_pos_nonneg 2 k ltac:(lia) Hk).
    exists (3 * (w / (3 * 2 ^ k))). pose proof (Z.mul_div_le w (3 * 2 ^ k) ltac:(lia)).
    pose proof (Z.div_pos w (3 * 2 ^ k) Hw ltac:(lia)). nia.
  - apply vp_pot; auto.
Qed.

(** ** Contracts only depend on the values of the columns *)

Lemma out_cols pf col col' n s stride h w wr : 0 < bytes_per_pixel pf ->
  (forall x y, 0 <= x -> col x y = col' x y) ->
  in_areas [out_area pf col n s stride h w] wr <-> in_areas [out_area pf col' n s stride h w] wr.
Proof.
  intros Hp H. cbn [in_areas]. unfold wunion, wempty, out_area.
  rewrite (area_ext n (s_off s) stride h (bytes_per_pixel pf * w) _
            (fun y j => pixel_byte pf (col' (j / bytes_per_pixel pf) y) (j mod bytes_per_pixel pf))); [tauto|].
  intros y j Hy Hj. rewrite H; [reflexivity|]. apply Z.div_pos; lia.
Qed.

Section Ext.
Variable T : target.
Variables A B : Z -> columns.

(** At positions to the right of the left border. *)
Section Pointwise.
Hypothesis HA : forall w x, 0 < w -> 0 <= x -> A w x = B w x.
Variable pf : pixel_format.
Hypothesis Hp : 0 < bytes_per_pixel pf.

Lemma k21_cols c k : k21_ok T B pf c k -> k21_ok T A pf c k.
Proof.
  intros H ms dl HB w h cw ch. intros.
  eapply runs_iff; [eapply (H ms dl HB w h cw ch); eauto|].
  intros wr. apply out_cols; auto. intros x y Hx. unfold nv12_col. rewrite HA by lia. reflexivity.
Qed.
Lemma k420r_cols c k : k420r_ok T B pf c k -> k420r_ok T A pf c k.
Proof.
  intros H ms dl HB w h cw ch. intros.
  eapply runs_iff; [eapply (H ms dl HB w h cw ch); eauto|].
  intros wr. apply out_cols; auto. intros x y Hx. unfold i420_col. rewrite HA by lia. reflexivity.
Qed.
Lemma k444r_cols c k : k444r_ok T B pf c k -> k444r_ok T A pf c k.
Proof.
  intros H ms dl HB w h. intros.
  eapply runs_iff; [eapply (H ms dl HB w h); eauto|].
  intros wr. apply out_cols; auto. intros x y Hx. unfold i444_col. rewrite HA by lia. reflexivity.
Qed.
End Pointwise.

Hypothesis HA : forall w, 0 < w -> A w = B w.

Lemma k21_ext pf c k : k21_ok T B pf c k -> k21_ok T A pf c k.
Proof. intros H ms dl HB w h cw ch. intros. rewrite HA by lia. eapply (H ms dl HB w h cw ch); eauto. Qed.
Lemma k420r_ext pf c k : k420r_ok T B pf c k -> k420r_ok T A pf c k.
Proof. intros H ms dl HB w h cw ch. intros. rewrite HA by lia. eapply (H ms dl HB w h cw ch); eauto. Qed.
Lemma k444r_ext pf c k : k444r_ok T B pf c k -> k444r_ok T A pf c k.
Proof. intros H ms dl HB w h. intros. rewrite HA by lia. eapply H; eauto. Qed.

Variables s t : Z -> Z.
Hypothesis Hs : forall w, 0 < w -> s w = t w.
Lemma k12_ext smp c k : k12_ok T B t smp c k -> k12_ok T A s smp c k.
Proof. intros H ms dl HB w h cw ch. intros. rewrite Hs in * by lia. rewrite HA by lia. eapply H; eauto. Qed.
Lemma k420_ext smp c k : k420_ok T B t smp c k -> k420_ok T A s smp c k.
Proof. intros H ms dl HB w h cw ch. intros. rewrite Hs in * by lia. rewrite HA by lia. eapply H; eauto. Qed.
Lemma k444_ext smp c k : k444_ok T B t smp c k -> k444_ok T A s smp c k.
Proof. intros H ms dl HB w h. intros. rewrite Hs in * by lia. rewrite HA by lia. eapply H; eauto. Qed.
End Ext.

Lemma k11_ext T s t spf dpf k : (forall w, 0 < w -> s w = t w) -> k11_ok T t spf dpf k -> k11_ok T s spf dpf k.
Proof. intros Hs H ms dl HB w h. intros. rewrite Hs in * by lia. eapply H; eauto. Qed.

(** ** The scalar kernels *)
Section Scalar.
Variable T : target.

Lemma s12 smp c : k12_ok T (fun _ => spec_cols) (fun _ => spare smp) smp c (rgb_to_nv12 smp (sampler_depth smp) c).
Proof. red. intros. eapply runs_rgb_to_nv12; eauto. Qed.
Lemma s420 smp c : k420_ok T (fun _ => spec_cols) (fun _ => spare smp) smp c (rgb_to_i420 smp (sampler_depth smp) c).
Proof. red. intros. eapply runs_rgb_to_i420; eauto. Qed.
Lemma s444 smp c : k444_ok T (fun _ => spec_cols) (fun _ => spare smp) smp c (rgb_to_i444 smp (sampler_depth smp) c).
Proof. red. intros. eapply runs_rgb_to_i444; eauto. Qed.
Lemma s21 c rev : k21_ok T (fun _ => spec_cols) (out4 rev) c (nv12_to_bgra c rev).
Proof. red. intros. eapply runs_nv12_to_bgra; eauto. destruct rev; assumption. Qed.
Lemma s21rgb c : k21_ok T (fun _ => spec_cols) Rgb c (nv12_to_rgb c).
Proof. red. intros. eapply runs_nv12_to_rgb; eauto. Qed.
Lemma s420r c rev : k420r_ok T (fun _ => spec_cols) (out4 rev) c (i420_to_bgra c rev).
Proof. red. intros. eapply runs_i420_to_bgra; eauto. destruct rev; assumption. Qed.
Lemma s444r c rev : k444r_ok T (fun _ => spec_cols) (out4 rev) c (i444_to_bgra c rev).
Proof. red. intros. eapply runs_i444_to_bgra; eauto. destruct rev; assumption. Qed.
Lemma s_bgra_rgb : k11_ok T (tail 4) Bgra Rgb bgra_to_rgb.
Proof. red. intros. cbn [bytes_per_pixel] in *. eapply runs_bgra_to_rgb; eauto; try lia; nia. Qed.
Lemma s_bgr_rgb : k11_ok T (fun _ => 0) Bgr Rgb bgr_to_rgb.
Proof. red. intros. cbn [bytes_per_pixel] in *. rewrite Z.add_0_r in *. eapply runs_bgr_to_rgb; eauto; try lia; nia. Qed.
Lemma s_rgb_bgra : k11_ok T (fun _ => 0) Rgb Bgra rgb_to_bgra.
Proof. red. intros. cbn [bytes_per_pixel] in *. rewrite Z.add_0_r in *. eapply runs_rgb_to_bgra; eauto; try lia; nia. Qed.
End Scalar.

(** ** How far the source is read *)
Definition exact_slack (set : instruction_set) (dpf : pixel_format) (smp : sampler) (w : Z) : Z :=
  last_read set (kfmt smp) dpf w.

(** BGR: whole groups of registers. *)
Lemma over_slack k over set dpf w : 0 <= k -> 0 < w ->
  (over_read set Bgr dpf w = if 3 * 2 ^ k <=? w then Z.max 0 (over - 3 * (w mod (3 * 2 ^ k))) else 0) ->
  over_read set Bgr dpf w = hyb_slack (fwd_vector_part (2 ^ k) 3) 3 0 over w.
Proof.
  intros Hk Hw ->. unfold hyb_slack, fwd_vector_part. cbn [Z.eqb Pos.eqb].
  pose proof (Z.pow_pos_nonneg 2 k ltac:(lia) Hk) as P. set (n := 2 ^ k) in *.
  pose proof (Z.div_mod w (3 * n) ltac:(lia)) as D. pose proof (Z.mod_pos_bound w (3 * n) ltac:(lia)) as B.
  set (q := w / (3 * n)) in *. set (r := w mod (3 * n)) in *.
  assert (Q : 3 * n <=? w = (0 <? 3 * n * q)).
  { clearbody q r. revert D B. generalize (3 * n). intros t D B.
    destruct (Z.leb_spec t w), (Z.ltb_spec 0 (t * q)); auto; exfalso; [lia|].
    assert (q < 1) by (apply (Z.mul_lt_mono_pos_l t); lia). assert (q <= 0) by lia. nia. }
  rewrite Q. replace (w - 3 * n * q) with r by lia. reflexivity.
Qed.

(** No over-read: only the last byte of the last BGRA pixel may be unread. *)
Lemma plain_slack k d sp w : 0 <= k -> 0 < w -> 0 < d -> -1 <= sp <= 0 ->
  (if w mod 2 ^ k =? 0 then 0 else sp) = hyb_slack (fun w => lower_multiple_of_pot w (2 ^ k)) d sp 0 w.
Proof.
  intros Hk Hw Hd Hsp. unfold hyb_slack. rewrite lower_pot_div by lia.
  pose proof (Z.pow_pos_nonneg 2 k ltac:(lia) Hk) as P. set (n := 2 ^ k) in *.
  pose proof (Z.div_mod w n ltac:(lia)) as D. pose proof (Z.mod_pos_bound w n ltac:(lia)) as B.
  set (q := w / n) in *. set (r := w mod n) in *. clearbody q r n.
  replace (w - n * q) with r by lia.
  destruct (Z.eqb_spec r 0) as [->|Nr].
  - replace (0 <? n * q) with true by lia. lia.
  - assert (d * 1 <= d * r) by (apply Z.mul_le_mono_nonneg_l; lia).
    destruct (0 <? n * q); lia.
Qed.

Lemma fwd_slack k over set dpf smp w : 0 <= k -> 0 < w -> is_rgb dpf = false ->
  (smp = S_Bgr -> over_read set Bgr dpf w = if 3 * 2 ^ k <=? w then Z.max 0 (over smp - 3 * (w mod (3 * 2 ^ k))) else 0) ->
  (smp <> S_Bgr -> over smp = 0) ->
  (reads_alpha set dpf w = (w mod 2 ^ k =? 0)) -> over_read set Argb dpf w = 0 ->
  exact_slack set dpf smp w =
  hyb_slack (fwd_vector_part (2 ^ k) (sampler_depth smp)) (sampler_depth smp) (spare smp) (over smp) w.
Proof.
  intros Hk Hw Ey Ho Hn Ha Hz. unfold exact_slack, last_read.
  destruct smp; cbn [kfmt sampler_depth spare].
  - rewrite Hz, Hn by discriminate. change (fwd_vector_part (2 ^ k) 4) with (fun w => lower_multiple_of_pot w (2 ^ k)).
    rewrite <- plain_slack by lia. destruct (_ =? 0); reflexivity.
  - rewrite Ha, Hn by discriminate. change (fwd_vector_part (2 ^ k) 4) with (fun w => lower_multiple_of_pot w (2 ^ k)).
    apply plain_slack; lia.
  - apply over_slack; auto.
Qed.

Lemma sse2_slack dpf smp w : is_rgb dpf = false -> 0 < w ->
  exact_slack CpuInfo.Sse2 dpf smp w =
  hyb_slack (fwd_vector_part (2 ^ 2) (sampler_depth smp)) (sampler_depth smp) (spare smp) (Sse2Forward.over smp) w.
Proof.
  intros E Hw. apply fwd_slack; auto; try lia; unfold over_read, reads_alpha; rewrite ?E; try reflexivity.
  - intros ->. reflexivity.
  - destruct smp; (reflexivity || congruence).
Qed.
Lemma avx2_slack dpf smp w : is_rgb dpf = false -> 0 < w ->
  exact_slack CpuInfo.Avx2 dpf smp w =
  hyb_slack (fwd_vector_part (2 ^ 3) (sampler_depth smp)) (sampler_depth smp) (spare smp) (Avx2Forward.over smp) w.
Proof.
  intros E Hw. apply fwd_slack; auto; try lia; unfold over_read, reads_alpha; rewrite ?E; try reflexivity.
  - intros ->. reflexivity.
  - destruct smp; (reflexivity || congruence).
Qed.
Lemma neon_slack dpf smp w : is_rgb dpf = false -> 0 < w ->
  exact_slack CpuInfo.Neon dpf smp w =
  hyb_slack (fun w => lower_multiple_of_pot w (2 ^ 3)) (sampler_depth smp) (spare smp) 0 w.
Proof.
  intros E Hw. unfold exact_slack, last_read, over_read, reads_alpha. rewrite E.
  rewrite <- plain_slack by (destruct smp; cbn; lia). destruct smp; try reflexivity; cbn [kfmt spare];
    destruct (_ =? 0); reflexivity.
Qed.

(** Re-ordering. *)
Lemma rgb_slack set dpf w : is_rgb dpf = true -> exact_slack set dpf S_Bgra w = tail 4 w.
Proof.
  intros E. unfold exact_slack, last_read, reads_alpha, tail. cbn [kfmt]. rewrite E. cbn [Z.eqb Pos.eqb andb].
  destruct (w mod 8 =? 0); reflexivity.
Qed.
Lemma rgb_slack0 set dpf w : is_rgb dpf = true -> exact_slack set dpf S_Bgr w = 0.
Proof. intros E. unfold exact_slack, last_read, over_read. cbn [kfmt]. rewrite E. destruct set; reflexivity. Qed.
Lemma tail_bound sd w : -1 <= tail sd w <= 0.
Proof. unfold tail. destruct (_ && _); lia. Qed.
Lemma last_read_bound set spf dpf w : -1 <= last_read set spf dpf w <= over_read set spf dpf w.
Proof.
  assert (0 <= over_read set spf dpf w).
  { unfold over_read. destruct set; try lia; destruct spf; try lia; destruct (is_rgb dpf); try lia;
      [destruct (12 <=? w)|destruct (24 <=? w)]; lia. }
  unfold last_read. destruct spf; try lia. destruct (reads_alpha set dpf w); lia.
Qed.

Lemma pot_le k w : 0 <= k -> 0 < w -> lower_multiple_of_pot w (2 ^ k) <= w.
Proof. intros Hk Hw. destruct (Avx2Reorder.lower_pot w k ltac:(lia) Hk) as (m & -> & B). lia. Qed.

Lemma sse2_fwd_cols smp dpf w : is_rgb dpf = false -> 0 < w ->
  set_cols CpuInfo.Sse2 (kfmt smp) dpf w = left_cols (fwd_vector_part (2 ^ 2) (sampler_depth smp) w) x86_arith.
Proof.
  intros E Hw. unfold set_cols, vector_part, fwd_vector_part. rewrite E, lower_pot_div by lia.
  destruct smp; reflexivity.
Qed.
Lemma avx2_fwd_cols smp dpf w : is_rgb dpf = false -> 0 < w ->
  set_cols CpuInfo.Avx2 (kfmt smp) dpf w = left_cols (fwd_vector_part (2 ^ 3) (sampler_depth smp) w) x86_arith.
Proof.
  intros E Hw. unfold set_cols, vector_part, fwd_vector_part. rewrite E, lower_pot_div by lia.
  destruct smp; reflexivity.
Qed.
Lemma neon_fwd_cols smp dpf w : is_rgb dpf = false -> 0 < w ->
  set_cols CpuInfo.Neon (kfmt smp) dpf w = left_cols (lower_multiple_of_pot w (2 ^ 3)) neon_arith.
Proof.
  intros E Hw. unfold set_cols, vector_part. rewrite E, lower_pot_div by lia.
  destruct smp; reflexivity.
Qed.
(** From YCbCr. *)
Lemma back_cols set spf dpf w n ar : 0 < w -> 0 <= n ->
  vector_part set spf dpf w = 2 ^ n * (w / 2 ^ n) -> vector_arith set = ar -> set <> X86 ->
  set_cols set spf dpf w = left_cols (lower_multiple_of_pot w (2 ^ n)) ar.
Proof. intros Hw Hn E <- Hx. unfold set_cols. rewrite E, lower_pot_div by lia. destruct set; congruence. Qed.

(** No vector code. *)
Lemma none_cols set spf dpf w x : vector_part set spf dpf w = 0 -> 0 <= x ->
  set_cols set spf dpf w x = spec_arith.
Proof. intros E Hx. unfold set_cols, left_cols. rewrite E. assert (B : x <? 0 = false) by lia.
  destruct set; rewrite ?B; reflexivity. Qed.

Lemma tail_part w : 0 < w ->
  tail 4 w = (if lower_multiple_of_pot w (2 ^ 4) =? w then 0 else tail 4 (w - lower_multiple_of_pot w (2 ^ 4))).
Proof.
  intros Hw. rewrite lower_pot_div by lia. change (2 ^ 4) with 16. unfold tail. cbn [Z.eqb Pos.eqb andb].
  destruct (Z.eqb_spec (16 * (w / 16)) w).
  - replace (w mod 8 =? 0) with true by lia. reflexivity.
  - replace ((w - 16 * (w / 16)) mod 8) with (w mod 8) by lia. reflexivity.
Qed.

(** ** The instruction sets *)

Ltac fwd E := cbn [sse2_converter avx2_converter neon_converter]; unfold E;
  rewrite colorimetry_cs, sampler_kfmt, pf_depth_kfmt; reflexivity.

Lemma out4_pos rev : 0 < bytes_per_pixel (out4 rev).
Proof. destruct rev; cbn; lia. Qed.

Theorem sse2_ok T : impl_ok T (set_cols CpuInfo.Sse2) (exact_slack CpuInfo.Sse2) sse2_converter.
Proof.
  split.
  - intros smp c. eexists. split; [fwd Sse2.sse2_rgb_nv12|].
    eapply k12_ext; [intros w Hw; apply sse2_fwd_cols; auto|intros w Hw; apply sse2_slack; auto|].
    apply (hyb_1_2_ok T (2 ^ 2) 2); try lia; [apply vp_fwd; lia| |apply s12].
    exact (Sse2Forward.rgb_to_nv12_sse2_ok T smp c).
  - intros smp c. eexists. split; [fwd Sse2.sse2_rgb_i420|].
    eapply k420_ext; [intros w Hw; apply sse2_fwd_cols; auto|intros w Hw; apply sse2_slack; auto|].
    apply (hyb_420_ok T (2 ^ 2) 2); try lia; [apply vp_fwd; lia| |apply s420].
    exact (Sse2Forward.rgb_to_i420_sse2_ok T smp c).
  - intros smp c. eexists. split; [fwd Sse2.sse2_rgb_i444|].
    eapply k444_ext; [intros w Hw; apply sse2_fwd_cols; auto|intros w Hw; apply sse2_slack; auto|].
    apply (hyb_444_ok T (2 ^ 2)); try lia; [apply vp_fwd; lia| |apply s444].
    exact (Sse2Forward.rgb_to_i444_sse2_ok T smp c).
  - intros pf c Hp. cbn [sse2_converter]. unfold Sse2.sse2_nv12_rgb. rewrite colorimetry_cs.
    destruct pf; try discriminate; (eexists; split; [reflexivity|]); cbn [pf_depth pf_reversed Z.eqb Pos.eqb].
    + eapply k21_ext; [intros w Hw; apply (back_cols _ _ _ _ 4 x86_arith); auto; (lia || discriminate)|].
      apply (hyb_21_ok T (2 ^ 4) 8 x86_arith Bgra); try (cbn; lia); [apply vp_pot; lia| |apply (s21 T c false)].
      exact (Sse2Backward.nv12_to_bgra_sse2_ok T c false).
    + eapply k21_ext; [intros w Hw; apply (back_cols _ _ _ _ 4 x86_arith); auto; (lia || discriminate)|].
      apply (hyb_21_ok T (2 ^ 4) 8 x86_arith Rgba); try (cbn; lia); [apply vp_pot; lia| |apply (s21 T c true)].
      exact (Sse2Backward.nv12_to_bgra_sse2_ok T c true).
    + eapply k21_cols; [intros w x Hw Hx; apply none_cols; auto|cbn; lia|apply s21rgb].
  - intros pf c Hp. cbn [sse2_converter]. unfold Sse2.sse2_i420_rgb. rewrite colorimetry_cs.
    destruct pf; try discriminate; (eexists; split; [reflexivity|]); cbn [pf_depth pf_reversed].
    + eapply k420r_ext; [intros w Hw; apply (back_cols _ _ _ _ 4 x86_arith); auto; (lia || discriminate)|].
      apply (hyb_420r_ok T (2 ^ 4) 8 x86_arith Bgra); try (cbn; lia); [apply vp_pot; lia| |apply (s420r T c false)].
      exact (Sse2Backward.i420_to_bgra_sse2_ok T c false).
    + eapply k420r_ext; [intros w Hw; apply (back_cols _ _ _ _ 4 x86_arith); auto; (lia || discriminate)|].
      apply (hyb_420r_ok T (2 ^ 4) 8 x86_arith Rgba); try (cbn; lia); [apply vp_pot; lia| |apply (s420r T c true)].
      exact (Sse2Backward.i420_to_bgra_sse2_ok T c true).
  - intros pf c Hp. cbn [sse2_converter]. unfold Sse2.sse2_i444_rgb. rewrite colorimetry_cs.
    destruct pf; try discriminate; (eexists; split; [reflexivity|]); cbn [pf_depth pf_reversed].
    + eapply k444r_ext; [intros w Hw; apply (back_cols _ _ _ _ 3 x86_arith); auto; (lia || discriminate)|].
      apply (hyb_444r_ok T (2 ^ 3) x86_arith Bgra); try (cbn; lia); [apply vp_pot; lia| |apply (s444r T c false)].
      exact (Sse2Backward.i444_to_bgra_sse2_ok T c false).
    + eapply k444r_ext; [intros w Hw; apply (back_cols _ _ _ _ 3 x86_arith); auto; (lia || discriminate)|].
      apply (hyb_444r_ok T (2 ^ 3) x86_arith Rgba); try (cbn; lia); [apply vp_pot; lia| |apply (s444r T c true)].
      exact (Sse2Backward.i444_to_bgra_sse2_ok T c true).
  - intros spf dpf Hs Hd Hp.
    destruct spf, dpf; try discriminate; (eexists; split; [reflexivity|]; split;
      [|intros w; unfold exact_slack; apply last_read_bound]); cbn [bytes_per_pixel sampler_of] in *.
    + eapply k11_ext; [intros w Hw; apply rgb_slack; auto|apply s_bgra_rgb].
    + eapply k11_ext; [intros w Hw; apply rgb_slack0; auto|apply s_bgr_rgb].
    + eapply k11_ext; [|apply (hyb_11_ok T (2 ^ 4) (fun _ => 0) Rgb Bgra (fun w => lower_multiple_of_pot w (2 ^ 4))); try (cbn; lia); [apply vp_pot; lia| |apply s_rgb_bgra]].
      { intros w Hw. rewrite rgb_slack0 by auto. destruct (_ =? w); reflexivity. }
      exact (Sse2Reorder.rgb_to_bgra_sse2_ok T).
Qed.

Theorem avx2_ok T : impl_ok T (set_cols CpuInfo.Avx2) (exact_slack CpuInfo.Avx2) avx2_converter.
Proof.
  split.
  - intros smp c. eexists. split; [fwd Avx2.avx2_rgb_nv12|].
    eapply k12_ext; [intros w Hw; apply avx2_fwd_cols; auto|intros w Hw; apply avx2_slack; auto|].
    apply (hyb_1_2_ok T (2 ^ 3) 4); try lia; [apply vp_fwd; lia| |apply s12].
    exact (Avx2Forward.rgb_to_nv12_avx2_ok T smp c).
  - intros smp c. eexists. split; [fwd Avx2.avx2_rgb_i420|].
    eapply k420_ext; [intros w Hw; apply avx2_fwd_cols; auto|intros w Hw; apply avx2_slack; auto|].
    apply (hyb_420_ok T (2 ^ 3) 4); try lia; [apply vp_fwd; lia| |apply s420].
    exact (Avx2Forward.rgb_to_i420_avx2_ok T smp c).
  - intros smp c. eexists. split; [fwd Avx2.avx2_rgb_i444|].
    eapply k444_ext; [intros w Hw; apply avx2_fwd_cols; auto|intros w Hw; apply avx2_slack; auto|].
    apply (hyb_444_ok T (2 ^ 3)); try lia; [apply vp_fwd; lia| |apply s444].
    exact (Avx2Forward.rgb_to_i444_avx2_ok T smp c).
  - intros pf c Hp. cbn [avx2_converter]. unfold Avx2.avx2_nv12_rgb. rewrite colorimetry_cs.
    destruct pf; try discriminate; (eexists; split; [reflexivity|]); cbn [pf_depth pf_reversed Z.eqb Pos.eqb].
    + eapply k21_ext; [intros w Hw; apply (back_cols _ _ _ _ 5 x86_arith); auto; (lia || discriminate)|].
      apply (hyb_21_ok T (2 ^ 5) 16 x86_arith Bgra); try (cbn; lia); [apply vp_pot; lia| |apply (s21 T c false)].
      exact (Avx2Backward.nv12_to_bgra_avx2_ok T c false).
    + eapply k21_ext; [intros w Hw; apply (back_cols _ _ _ _ 5 x86_arith); auto; (lia || discriminate)|].
      apply (hyb_21_ok T (2 ^ 5) 16 x86_arith Rgba); try (cbn; lia); [apply vp_pot; lia| |apply (s21 T c true)].
      exact (Avx2Backward.nv12_to_bgra_avx2_ok T c true).
    + eapply k21_ext; [intros w Hw; apply (back_cols _ _ _ _ 5 x86_arith); auto; (lia || discriminate)|].
      apply (hyb_21_ok T (2 ^ 5) 16 x86_arith Rgb); try (cbn; lia); [apply vp_pot; lia| |apply (s21rgb T c)].
      exact (Avx2Backward.nv12_to_rgb_avx2_ok T c).
  - intros pf c Hp. cbn [avx2_converter]. unfold Avx2.avx2_i420_rgb. rewrite colorimetry_cs.
    destruct pf; try discriminate; (eexists; split; [reflexivity|]); cbn [pf_depth pf_reversed].
    + eapply k420r_ext; [intros w Hw; apply (back_cols _ _ _ _ 5 x86_arith); auto; (lia || discriminate)|].
      apply (hyb_420r_ok T (2 ^ 5) 16 x86_arith Bgra); try (cbn; lia); [apply vp_pot; lia| |apply (s420r T c false)].
      exact (Avx2Backward.i420_to_bgra_avx2_ok T c false).
    + eapply k420r_ext; [intros w Hw; apply (back_cols _ _ _ _ 5 x86_arith); auto; (lia || discriminate)|].
      apply (hyb_420r_ok T (2 ^ 5) 16 x86_arith Rgba); try (cbn; lia); [apply vp_pot; lia| |apply (s420r T c true)].
      exact (Avx2Backward.i420_to_bgra_avx2_ok T c true).
  - intros pf c Hp. cbn [avx2_converter]. unfold Avx2.avx2_i444_rgb. rewrite colorimetry_cs.
    destruct pf; try discriminate; (eexists; split; [reflexivity|]); cbn [pf_depth pf_reversed].
    + eapply k444r_ext; [intros w Hw; apply (back_cols _ _ _ _ 4 x86_arith); auto; (lia || discriminate)|].
      apply (hyb_444r_ok T (2 ^ 4) x86_arith Bgra); try (cbn; lia); [apply vp_pot; lia| |apply (s444r T c false)].
      exact (Avx2Backward.i444_to_bgra_avx2_ok T c false).
    + eapply k444r_ext; [intros w Hw; apply (back_cols _ _ _ _ 4 x86_arith); auto; (lia || discriminate)|].
      apply (hyb_444r_ok T (2 ^ 4) x86_arith Rgba); try (cbn; lia); [apply vp_pot; lia| |apply (s444r T c true)].
      exact (Avx2Backward.i444_to_bgra_avx2_ok T c true).
  - intros spf dpf Hs Hd Hp.
    destruct spf, dpf; try discriminate; (eexists; split; [reflexivity|]; split;
      [|intros w; unfold exact_slack; apply last_read_bound]); cbn [bytes_per_pixel sampler_of] in *.
    + red. intros. rewrite rgb_slack in * by auto. cbn [bytes_per_pixel] in *. apply Avx2Reorder.runs_bgra_to_rgb_avx2; auto; lia.
    + eapply k11_ext; [|apply (hyb_11_ok T (2 ^ 5) (fun _ => 0) Bgr Rgb (fun w => lower_multiple_of_pot w (2 ^ 5))); try (cbn; lia); [apply vp_pot; lia| |apply s_bgr_rgb]].
      { intros w Hw. rewrite rgb_slack0 by auto. destruct (_ =? w); reflexivity. }
      exact (Avx2Reorder.bgr_to_rgb_avx2_ok T).
    + eapply k11_ext; [|apply (hyb_11_ok T (2 ^ 5) (fun _ => 0) Rgb Bgra (fun w => lower_multiple_of_pot w (2 ^ 5))); try (cbn; lia); [apply vp_pot; lia| |apply s_rgb_bgra]].
      { intros w Hw. rewrite rgb_slack0 by auto. destruct (_ =? w); reflexivity. }
      exact (Avx2Reorder.rgb_to_bgra_avx2_ok T).
Qed.

Theorem neon_ok T : impl_ok T (set_cols CpuInfo.Neon) (exact_slack CpuInfo.Neon) neon_converter.
Proof.
  assert (D : forall smp, 0 <= sampler_depth smp) by (intros []; cbn; lia).
  split.
  - intros smp c. eexists. split; [fwd Neon.neon_rgb_nv12|].
    eapply k12_ext; [intros w Hw; apply neon_fwd_cols; auto|
      intros w Hw; apply neon_slack; auto|].
    apply (hyb_1_2_ok T (2 ^ 3) 4); try lia; [apply vp_pot; lia| |apply s12].
    exact (NeonForward.rgb_to_nv12_neon_ok T smp c).
  - intros smp c. eexists. split; [fwd Neon.neon_rgb_i420|].
    eapply k420_ext; [intros w Hw; apply neon_fwd_cols; auto|
      intros w Hw; apply neon_slack; auto|].
    apply (hyb_420_ok T (2 ^ 3) 4); try lia; [apply vp_pot; lia| |apply s420].
    exact (NeonForward.rgb_to_i420_neon_ok T smp c).
  - intros smp c. eexists. split; [fwd Neon.neon_rgb_i444|].
    eapply k444_ext; [intros w Hw; apply neon_fwd_cols; auto|
      intros w Hw; apply neon_slack; auto|].
    apply (hyb_444_ok T (2 ^ 3)); try lia; [apply vp_pot; lia| |apply s444].
    exact (NeonForward.rgb_to_i444_neon_ok T smp c).
  - intros pf c Hp. destruct (io_nv12r _ _ _ _ (x86_ok T) pf c Hp) as (k & E & K). exists k. split; [exact E|].
    eapply k21_cols; [|destruct pf; try discriminate; cbn; lia|exact K].
    intros w x Hw Hx. apply none_cols; auto.
  - intros pf c Hp. destruct (io_i420r _ _ _ _ (x86_ok T) pf c Hp) as (k & E & K). exists k. split; [exact E|].
    eapply k420r_cols; [|destruct pf; try discriminate; cbn; lia|exact K].
    intros w x Hw Hx. apply none_cols; auto.
  - intros pf c Hp. destruct (io_i444r _ _ _ _ (x86_ok T) pf c Hp) as (k & E & K). exists k. split; [exact E|].
    eapply k444r_cols; [|destruct pf; try discriminate; cbn; lia|exact K].
    intros w x Hw Hx. apply none_cols; auto.
  - intros spf dpf Hs Hd Hp.
    destruct spf, dpf; try discriminate; (eexists; split; [reflexivity|]; split;
      [|intros w; unfold exact_slack; apply last_read_bound]); cbn [bytes_per_pixel sampler_of] in *.
    + eapply k11_ext; [|apply (hyb_11_ok T (2 ^ 4) (tail 4) Bgra Rgb (fun w => lower_multiple_of_pot w (2 ^ 4))); try (cbn; lia);
        [apply vp_pot; lia| |apply s_bgra_rgb|intros; apply tail_bound]].
      { intros w Hw. rewrite rgb_slack by auto. apply tail_part; lia. }
      exact (NeonReorder.bgra_to_rgb_neon_ok T).
    + eapply k11_ext; [|apply (hyb_11_ok T (2 ^ 4) (fun _ => 0) Bgr Rgb (fun w => lower_multiple_of_pot w (2 ^ 4))); try (cbn; lia); [apply vp_pot; lia| |apply s_bgr_rgb]].
      { intros w Hw. rewrite rgb_slack0 by auto. destruct (_ =? w); reflexivity. }
      exact (NeonReorder.bgr_to_rgb_neon_ok T).
    + eapply k11_ext; [|apply (hyb_11_ok T (2 ^ 4) (fun _ => 0) Rgb Bgra (fun w => lower_multiple_of_pot w (2 ^ 4))); try (cbn; lia); [apply vp_pot; lia| |apply s_rgb_bgra]].
      { intros w Hw. rewrite rgb_slack0 by auto. destruct (_ =? w); reflexivity. }
      exact (NeonReorder.rgb_to_bgra_neon_ok T).
Qed.

Theorem set_ok_exact set T : impl_ok T (set_cols set) (exact_slack set) (converters set).
Proof.
  destruct set; [|apply sse2_ok|apply avx2_ok|apply neon_ok].
  destruct (x86_ok T) as [F1 F2 F3 F4 F5 F6 F7]. split; auto.
  1-3: intros smp c; specialize (F1 smp c); specialize (F2 smp c); specialize (F3 smp c); destruct smp; assumption.
  intros spf dpf Hs Hd Hp. destruct (F7 spf dpf Hs Hd Hp) as (k & E & K & Kb). exists k. split; [exact E|]. split.
  - eapply k11_ext; [|exact K]. intros w Hw. unfold x86_slack. rewrite Hd.
    destruct spf, dpf; try discriminate; cbn [sampler_of]; first [rewrite rgb_slack by auto|rewrite rgb_slack0 by auto]; reflexivity.
  - intros w. apply last_read_bound.
Qed.

(** Without the exception for the last BGRA pixel. *)
Definition set_slack (set : instruction_set) (dpf : pixel_format) (smp : sampler) (w : Z) : Z :=
  over_read set (kfmt smp) dpf w.

Lemma exact_le set dpf smp w : exact_slack set dpf smp w <= set_slack set dpf smp w.
Proof. apply last_read_bound. Qed.

Theorem set_ok set T : impl_ok T (set_cols set) (set_slack set) (converters set).
Proof.
  destruct (set_ok_exact set T) as [F1 F2 F3 F4 F5 F6 F7].
  assert (W : forall ms dl s st rows n dpf smp w,
    fits ms dl s st rows (n + set_slack set dpf smp w) -> fits ms dl s st rows (n + exact_slack set dpf smp w)).
  { intros. eapply fits_sub; [eassumption|]. pose proof (exact_le set dpf smp w). lia. }
  split; auto.
  - intros smp c. destruct (F1 smp c) as (k & E & K). exists k. split; [exact E|].
    intros ms dl HB w h cw ch. intros. eapply (K ms dl HB w h cw ch); eauto.
  - intros smp c. destruct (F2 smp c) as (k & E & K). exists k. split; [exact E|].
    intros ms dl HB w h cw ch. intros. eapply (K ms dl HB w h cw ch); eauto.
  - intros smp c. destruct (F3 smp c) as (k & E & K). exists k. split; [exact E|].
    intros ms dl HB w h. intros. eapply (K ms dl HB w h); eauto.
  - intros spf dpf Hs Hd Hp. destruct (F7 spf dpf Hs Hd Hp) as (k & E & K & Kb). exists k. split; [exact E|]. split.
    + intros ms dl HB w h. intros. eapply (K ms dl HB w h); eauto.
    + intros w. pose proof (exact_le set dpf (sampler_of spf) w). specialize (Kb w). lia.
Qed.

(** ** The over-read of a call *)
Lemma over_read_nonneg set spf dpf w : 0 <= over_read set spf dpf w.
Proof.
  unfold over_read. destruct set; try lia; destruct spf; try lia; destruct (is_rgb dpf); try lia;
    [destruct (12 <=? w)|destruct (24 <=? w)]; lia.
Qed.

Lemma slack_of_set set src dst w : supported (i_pf src) (i_pf dst) = true ->
  slack_of (set_slack set) src dst w = over_read set (i_pf src) (i_pf dst) w.
Proof.
  unfold slack_of, set_slack. destruct (i_pf src) eqn:Es, (i_pf dst); try discriminate; intros _;
    try reflexivity; destruct set; reflexivity.
Qed.
Lemma slack_of_exact set src dst w : supported (i_pf src) (i_pf dst) = true ->
  slack_of (exact_slack set) src dst w = last_read set (i_pf src) (i_pf dst) w.
Proof.
  unfold slack_of, exact_slack. destruct (i_pf src) eqn:Es, (i_pf dst); try discriminate; intros _;
    try reflexivity; destruct set; reflexivity.
Qed.
