(** The reordering kernels of avx2.rs. *)
From Coq Require Import ZArith List Bool Lia ZifyBool ZifyNat.
Import ListNotations.
From Verif Require Import Base Exec Area Fmt Common Scalar Wrappers Simd Vector Avx2 Spec PixelFacts
  KernelBase ForwardProofs BackwardProofs SimdFacts VecForward Bytes ReorderProofs VecReorder.
Open Scope Z_scope.

Lemma bgr_to_rgb_32x_bytes f :
  bgr_to_rgb_32x (loaded 32 f) (loaded 32 (fun k => f (32 + k))) (loaded 32 (fun k => f (64 + k)))
  = (map (rowf Bgr Rgb f) (zseq 0 32), map (fun j => rowf Bgr Rgb f (32 + j)) (zseq 0 32),
     map (fun j => rowf Bgr Rgb f (64 + j)) (zseq 0 32)).
Proof.
  unfold bgr_to_rgb_32x. lazy -[Z.lor]. rewrite ?Z.lor_0_r, ?Z.lor_0_l. reflexivity.
Qed.

Lemma bgra_to_rgb_32x_bytes f :
  bgra_to_rgb_32x (loaded 32 f) (loaded 32 (fun k => f (32 + k))) (loaded 32 (fun k => f (64 + k)))
    (loaded 32 (fun k => f (96 + k)))
  = (map (rowf Bgra Rgb f) (zseq 0 32), map (fun j => rowf Bgra Rgb f (32 + j)) (zseq 0 32),
     map (fun j => rowf Bgra Rgb f (64 + j)) (zseq 0 32)).
Proof.
  unfold bgra_to_rgb_32x.
  change (shuffle 0 3 3 3) with 63. change (shuffle 3 3 2 1) with 249. change (shuffle 1 0 3 3) with 79.
  change (shuffle 3 3 3 2) with 254. change (shuffle 2 1 0 3) with 147.
  lazy -[Z.lor]. rewrite ?Z.lor_0_r, ?Z.lor_0_l. reflexivity.
Qed.

Lemma rgb_to_bgra_32x_bytes f :
  rgb_to_bgra_32x (loaded 32 f) (loaded 32 (fun k => f (32 + k))) (loaded 32 (fun k => f (64 + k)))
  = (map (rowf Rgb Bgra f) (zseq 0 32), map (fun j => rowf Rgb Bgra f (32 + j)) (zseq 0 32),
     map (fun j => rowf Rgb Bgra f (64 + j)) (zseq 0 32), map (fun j => rowf Rgb Bgra f (96 + j)) (zseq 0 32)).
Proof.
  unfold rgb_to_bgra_32x. change (shuffle 0 0 0 3) with 3.
  lazy -[Z.lor]. rewrite ?Z.lor_0_r, ?Z.lor_0_l. reflexivity.
Qed.

Lemma bgra_to_rgb_8x_bytes f :
  (let r := permutevar8x32 (halves2 shuffle_epi8 (loaded 32 f) shf_mask_no_comb) pk_mask in (lo r, elem 8 2 r))
  = (map (rowf Bgra Rgb f) (zseq 0 16), map (fun j => rowf Bgra Rgb f (16 + j)) (zseq 0 8)).
Proof. reflexivity. Qed.

Lemma lower_pot w k : 0 <= w -> 0 <= k ->
  exists m, lower_multiple_of_pot w (2 ^ k) = 2 ^ k * m /\ 0 <= m /\ 2 ^ k * m <= w < 2 ^ k * m + 2 ^ k.
Proof.
  intros Hw Hk. exists (w / 2 ^ k). unfold lower_multiple_of_pot.
  replace (2 ^ k - 1) with (Z.ones k) by (rewrite Z.ones_equiv; lia). rewrite Z.land_ones by lia.
  pose proof (Z.pow_pos_nonneg 2 k ltac:(lia) Hk).
  pose proof (Z.div_mod w (2 ^ k) ltac:(lia)). pose proof (Z.mod_pos_bound w (2 ^ k) ltac:(lia)).
  repeat split; try lia. apply Z.div_pos; lia.
Qed.

Section S.
Variable T : target.
Variable ms : list (list Z).
Variable dl : list nat.
Hypothesis HB : bytes_ok ms.
Variables src dst : slice.
Variable n : nat.
Hypothesis Hs : src_ok T ms dl src.
Hypothesis Hd : dst_ok T ms dl dst n.

Notation runs := (runs T ms dl).
Notation rowb so := (rowf Bgra Rgb (fun k => byte ms src (so + k))).

Lemma bgr_step32_ok : step_ok T ms dl Bgr Rgb 32 src dst n (bgr_to_rgb_step32 src dst).
Proof.
  intros so do_ Hso Hdo. change (bytes_per_pixel Bgr * 32) with 96. change (bytes_per_pixel Rgb * 32) with 96.
  intros Ls Ld Us Ud. unfold bgr_to_rgb_step32, LANE_COUNT.
  eapply runs_bind0; [apply exec_load; auto; lia|].
  eapply runs_bind0; [apply exec_load; auto; lia|].
  eapply runs_bind0; [apply exec_load; auto; lia|].
  rewrite !(loaded_shift ms src so), bgr_to_rgb_32x_bytes.
  set (F := rowf Bgr Rgb (fun k => byte ms src (so + k))). eapply runs_iff.
  - eapply runs_bind; [apply runs_stn_fun; eauto; lia|].
    eapply runs_bind; [apply runs_stn_fun; eauto; lia|].
    eapply runs_bind1; [apply runs_stn_fun; eauto; lia|].
    eapply exec_bind0; [apply exec_uadd; lia|].
    eapply exec_bind0; [apply exec_uadd; lia|].
    apply exec_ret.
  - intros w. unfold wunion. change 96 with (32 + (32 + 32)) at 1.
    rewrite !row_app by lia. change (Z.of_nat 32) with 32.
    apply or_iff; [|apply or_iff]; apply row_ext; try lia; intros j Hj; try reflexivity.
    unfold F. apply f_equal. lia.
Qed.

Lemma rgb_step32_ok : step_ok T ms dl Rgb Bgra 32 src dst n (rgb_to_bgra_step32 src dst).
Proof.
  intros so do_ Hso Hdo. change (bytes_per_pixel Rgb * 32) with 96. change (bytes_per_pixel Bgra * 32) with 128.
  intros Ls Ld Us Ud. unfold rgb_to_bgra_step32, LANE_COUNT.
  eapply runs_bind0; [apply exec_load; auto; lia|].
  eapply runs_bind0; [apply exec_load; auto; lia|].
  eapply runs_bind0; [apply exec_load; auto; lia|].
  rewrite !(loaded_shift ms src so), rgb_to_bgra_32x_bytes.
  set (F := rowf Rgb Bgra (fun k => byte ms src (so + k))). eapply runs_iff.
  - eapply runs_bind; [apply runs_stn_fun; eauto; lia|].
    eapply runs_bind; [apply runs_stn_fun; eauto; lia|].
    eapply runs_bind; [apply runs_stn_fun; eauto; lia|].
    eapply runs_bind1; [apply runs_stn_fun; eauto; lia|].
    eapply exec_bind0; [apply exec_uadd; lia|].
    eapply exec_bind0; [apply exec_uadd; lia|].
    apply exec_ret.
  - intros w. unfold wunion. change 128 with (32 + (32 + (32 + 32))) at 1.
    rewrite !row_app by lia. change (Z.of_nat 32) with 32.
    apply or_iff; [|apply or_iff; [|apply or_iff]]; apply row_ext; try lia; intros j Hj; try reflexivity;
    unfold F; apply f_equal; lia.
Qed.

Lemma runs_bgra_step32 y so do_ :
  0 <= y -> 0 <= so -> 0 <= do_ ->
  so + 128 <= cap ms dl src -> do_ + 96 <= cap ms dl dst ->
  so + 128 < usz T -> do_ + 96 < usz T -> y + 32 < usz T ->
  runs (bgra_to_rgb_step32 src dst (y, so, do_)) (row n (s_off dst + do_) 96 (rowb so)) (y + 32, so + 128, do_ + 96).
Proof.
  intros Hy Hso Hdo Ls Ld Us Ud Uy. unfold bgra_to_rgb_step32, LANE_COUNT.
  eapply runs_bind0; [apply exec_load; auto; lia|].
  eapply runs_bind0; [apply exec_load; auto; lia|].
  eapply runs_bind0; [apply exec_load; auto; lia|].
  eapply runs_bind0; [apply exec_load; auto; lia|].
  rewrite !(loaded_shift ms src so), bgra_to_rgb_32x_bytes.
  set (F := rowb so). eapply runs_iff.
  - eapply runs_bind; [apply runs_stn_fun; eauto; lia|].
    eapply runs_bind; [apply runs_stn_fun; eauto; lia|].
    eapply runs_bind1; [apply runs_stn_fun; eauto; lia|].
    eapply exec_bind0; [apply exec_uadd; lia|].
    eapply exec_bind0; [apply exec_uadd; lia|].
    eapply exec_bind0; [apply exec_uadd; lia|].
    apply exec_ret.
  - intros w. unfold wunion. change 96 with (32 + (32 + 32)) at 1.
    rewrite !row_app by lia. change (Z.of_nat 32) with 32.
    apply or_iff; [|apply or_iff]; apply row_ext; try lia; intros j Hj; try reflexivity.
    unfold F. apply f_equal. lia.
Qed.

Lemma runs_bgra_step8_avx2 y so do_ :
  0 <= y -> 0 <= so -> 0 <= do_ ->
  so + 32 <= cap ms dl src -> do_ + 24 <= cap ms dl dst ->
  so + 32 < usz T -> do_ + 24 < usz T -> y + 8 < usz T ->
  runs (bgra_to_rgb_step8_avx2 src dst (y, so, do_)) (row n (s_off dst + do_) 24 (rowb so)) (y + 8, so + 32, do_ + 24).
Proof.
  intros Hy Hso Hdo Ls Ld Us Ud Uy. unfold bgra_to_rgb_step8_avx2, LANE_COUNT.
  eapply runs_bind0; [apply exec_load; auto; lia|]. cbv zeta.
  pose proof (bgra_to_rgb_8x_bytes (at_ ms src so)) as E. cbv zeta in E.
  pose proof (f_equal fst E) as E1. pose proof (f_equal snd E) as E2. cbn [fst snd] in E1, E2. clear E.
  rewrite E1, E2. set (F := rowb so). eapply runs_iff.
  - eapply runs_bind; [apply runs_stn_fun; eauto; lia|].
    eapply runs_bind0; [apply exec_uadd; lia|].
    eapply runs_bind1; [apply runs_stn_fun; eauto; lia|].
    eapply exec_bind0; [apply exec_uadd; lia|].
    eapply exec_bind0; [apply exec_uadd; lia|].
    eapply exec_bind0; [apply exec_uadd; lia|].
    apply exec_ret.
  - intros w. unfold wunion. change 24 with (16 + 8) at 1.
    rewrite !row_app by lia. change (Z.of_nat 16) with 16. change (Z.of_nat 8) with 8.
    apply or_iff; apply row_ext; try lia; intros j Hj; reflexivity.
Qed.

Lemma rowb_at so k r : 0 <= r < 3 ->
  rowb so (3 * k + r) = pixel_byte Rgb (byte ms src (so + (4 * k + 2)), byte ms src (so + (4 * k + 1)), byte ms src (so + (4 * k))) r.
Proof.
  intros H. unfold rowf. cbn [component_offsets bytes_per_pixel].
  rewrite div_mul_add, mod_mul_add by lia. rewrite Z.add_0_r. reflexivity.
Qed.

Lemma runs_bgra_rest1 so do_ y :
  0 <= y -> 0 <= so -> 0 <= do_ ->
  so + 4 * y + 3 <= cap ms dl src -> do_ + 3 * y + 3 <= cap ms dl dst ->
  runs (bgra_to_rgb_rest1 src dst so do_ y) (row n (s_off dst + do_ + 3 * y) 3 (fun j => rowb so (3 * y + j))) tt.
Proof.
  intros Hy Hso Hdo Ls Ld.
  assert (Us : cap ms dl src < usz T) by apply Hs. assert (Ud : cap ms dl dst < usz T) by apply Hd.
  destruct Hs as (Hs1 & Hs2 & _). destruct Hd as (Hd1 & Hd2 & _).
  unfold bgra_to_rgb_rest1. eapply runs_iff.
  - repeat first [ eapply runs_bind0; [first [apply exec_umul; lia | apply exec_uadd; lia | apply exec_ld; auto; lia]|]
                 | eapply runs_bind; [eapply runs_st; eauto; lia|] ].
    eapply runs_st; eauto; lia.
  - intros w. unfold wunion. rewrite row_iff. split.
    + intros [->|[->| ->]]; [exists 0|exists 1|exists 2]; (split; [lia|]);
        rewrite rowb_at by lia; cbn [pixel_byte component_offsets Z.eqb Pos.eqb];
        (apply write_eq; [lia|first [reflexivity | f_equal; lia]]).
    + intros (j & Hj & ->). rewrite rowb_at by lia.
      assert (j = 0 \/ j = 1 \/ j = 2) as [->|[->| ->]] by lia;
        cbn [pixel_byte component_offsets Z.eqb Pos.eqb];
        [left|right;left|right;right]; (apply write_eq; [lia|first [reflexivity | f_equal; lia]]).
Qed.

Lemma rowb_shift so k j : 0 <= j -> rowb so (3 * k + j) = rowb (so + 4 * k) j.
Proof.
  intros Hj. etransitivity; [apply (rowf_shift Bgra Rgb (fun i => byte ms src (so + i)) k j); [reflexivity|lia]|].
  apply rowf_ext. intros i. f_equal. change (bytes_per_pixel Bgra) with 4. lia.
Qed.

(** A run of vector steps in one row. *)
Lemma runs_bgra_steps step W k a so do_ :
  0 < W -> 0 <= a -> 0 <= k -> 0 <= so -> 0 <= do_ ->
  so + 4 * (a + W * k) <= cap ms dl src -> do_ + 3 * (a + W * k) <= cap ms dl dst ->
  (forall y so do_, 0 <= y -> 0 <= so -> 0 <= do_ ->
    so + 4 * W <= cap ms dl src -> do_ + 3 * W <= cap ms dl dst ->
    so + 4 * W < usz T -> do_ + 3 * W < usz T -> y + W < usz T ->
    runs (step (y, so, do_)) (row n (s_off dst + do_) (3 * W) (rowb so)) (y + W, so + 4 * W, do_ + 3 * W)) ->
  runs (loop (Z.to_nat k) (a, so + 4 * a, do_ + 3 * a) step)
    (row n (s_off dst + do_ + 3 * a) (3 * (W * k)) (fun j => rowb so (3 * a + j)))
    (a + W * k, so + 4 * (a + W * k), do_ + 3 * (a + W * k)).
Proof.
  intros HW Ha Hk Hso Hdo Ls Ld Hst.
  assert (Us : cap ms dl src < usz T) by apply Hs. assert (Ud : cap ms dl dst < usz T) by apply Hd.
  pose proof (runs_loop0 T ms dl k (fun i => (a + W * i, so + 4 * (a + W * i), do_ + 3 * (a + W * i))) step
    (fun i => row n (s_off dst + do_ + 3 * a + 3 * W * i) (3 * W) (fun j => rowb so (3 * a + (3 * W * i + j))))) as L.
  cbv beta in L. rewrite !Z.mul_0_r, !Z.add_0_r in L.
  eapply runs_iff.
  - apply L; [|lia]. intros i Hi.
    assert (W * (i + 1) <= W * k) by (apply Z.mul_le_mono_nonneg_l; lia).
    assert (0 <= W * i) by (apply Z.mul_nonneg_nonneg; lia).
    rewrite !Z.mul_add_distr_l, !Z.mul_1_r in *.
    replace (a + (W * i + W)) with (a + W * i + W) by lia.
    replace (so + (4 * a + 4 * (W * i))) with (so + 4 * (a + W * i)) by lia.
    replace (do_ + (3 * a + 3 * (W * i))) with (do_ + 3 * (a + W * i)) by lia.
    replace (so + (4 * a + (4 * (W * i) + 4 * W))) with (so + 4 * (a + W * i) + 4 * W) by lia.
    replace (do_ + (3 * a + (3 * (W * i) + 3 * W))) with (do_ + 3 * (a + W * i) + 3 * W) by lia.
    eapply runs_iff; [apply Hst; lia|].
    intros w. apply row_ext; try lia. intros j Hj.
    rewrite <- rowb_shift by lia. f_equal. lia.
  - intros w.
    rewrite <- (row_chunks n (s_off dst + do_ + 3 * a) (3 * W) (fun j => rowb so (3 * a + j)) 0 k w) by lia.
    apply row_ext; try lia. intros; f_equal; lia.
Qed.

Lemma runs_bgra_to_rgb_avx2 w h ss ds :
  0 < w -> 0 < h -> 4 * w <= ss -> 3 * w <= ds -> ss * h < usz T -> ds * h < usz T ->
  fits ms dl src ss h (4 * w + tail 4 w) -> fits ms dl dst ds h (3 * w) ->
  runs (bgra_to_rgb_avx2 w h ss src ds dst) (in_areas [out_area Rgb (pcol ms Bgra src ss) n dst ds h w]) tt.
Proof.
  intros Hw Hh Hss Hds Os Od Fs Fd.
  assert (ss <= ss * h) by nia. assert (ds <= ds * h) by nia.
  assert (Us : cap ms dl src < usz T) by apply Hs. assert (Ud : cap ms dl dst < usz T) by apply Hd.
  unfold bgra_to_rgb_avx2, LANE_COUNT.
  eapply runs_bind0; [apply exec_umul; lia|].
  eapply runs_bind0; [apply exec_usub; lia|].
  eapply runs_bind0; [apply exec_umul; lia|].
  eapply runs_bind0; [apply exec_usub; lia|]. cbv zeta.
  destruct (lower_pot w 5 ltac:(lia) ltac:(lia)) as (m & Em & Hm & Bm). change (2 ^ 5) with 32 in *. rewrite Em.
  destruct (lower_pot w 3 ltac:(lia) ltac:(lia)) as (l & El & Hl & Bl). change (2 ^ 3) with 8 in *. rewrite El.
  rewrite (div_mul_add 32 m 31) by lia.
  assert (Ht : -1 <= tail 4 w <= 0 /\ (8 * l = w -> tail 4 w = 0)).
  { unfold tail. cbn [Z.eqb Pos.eqb andb]. destruct (negb (w mod 8 =? 0)) eqn:E; split; lia. }
  destruct Ht as [Ht Ht0]. set (t := tail 4 w) in *. clearbody t.
  assert (HR : forall y, 0 <= y < h -> 0 <= ss * y /\ ss * y + 4 * w + t <= cap ms dl src /\
      0 <= ds * y /\ ds * y + 3 * w <= cap ms dl dst) by (intros y Hy; destruct Fs, Fd; nia).
  assert (P1 : runs (for_ h (fun i =>
    a <- umul 4 w ;; ss' <- uadd a (ss - 4 * w) ;; so <- umul ss' i ;;
    b <- umul 3 w ;; ds' <- uadd b (ds - 3 * w) ;; do_ <- umul ds' i ;;
    s1 <- loop (Z.to_nat m) (0, so, do_) (bgra_to_rgb_step32 src dst) ;;
    loop (Z.to_nat ((8 * l - fst (fst s1) + 7) / 8)) s1 (bgra_to_rgb_step8_avx2 src dst) ;;
    ret tt))
    (fun wr => exists y, 0 <= y < h /\ row n (s_off dst + ds * y) (3 * (8 * l)) (rowb (ss * y)) wr) tt).
  { apply runs_for with (P := fun y => row n (s_off dst + ds * y) (3 * (8 * l)) (rowb (ss * y))).
    intros y Hy. destruct (HR y Hy) as (R1 & R2 & R3 & R4).
    eapply runs_bind0; [apply exec_umul; lia|].
    eapply runs_bind0; [apply exec_uadd; lia|]. replace (4 * w + (ss - 4 * w)) with ss by lia.
    eapply runs_bind0; [apply exec_umul; lia|].
    eapply runs_bind0; [apply exec_umul; lia|].
    eapply runs_bind0; [apply exec_uadd; lia|]. replace (3 * w + (ds - 3 * w)) with ds by lia.
    eapply runs_bind0; [apply exec_umul; lia|].
    set (so := ss * y) in *. set (do_ := ds * y) in *. clearbody so do_.
    eapply runs_iff.
    - eapply runs_bind.
      { pose proof (runs_bgra_steps (bgra_to_rgb_step32 src dst) 32 m 0 so do_) as L.
        rewrite !Z.mul_0_r, !Z.add_0_r, !Z.add_0_l in L. apply L; try lia.
        intros. apply runs_bgra_step32; lia. }
      cbn [fst].
      replace ((8 * l - 32 * m + 7) / 8) with (l - 4 * m)
        by (replace (8 * l - 32 * m + 7) with (8 * (l - 4 * m) + 7) by lia; symmetry; apply div_mul_add; lia).
      eapply runs_bind1; [|apply exec_ret].
      apply (runs_bgra_steps (bgra_to_rgb_step8_avx2 src dst) 8 (l - 4 * m) (32 * m) so do_); try lia.
      intros. apply runs_bgra_step8_avx2; lia.
    - intros wr. unfold wunion.
      replace (3 * (8 * l)) with (3 * (32 * m) + 3 * (8 * (l - 4 * m))) by lia.
      rewrite row_app by lia. apply or_iff; apply row_ext; try lia; intros; reflexivity. }
  destruct (Z.eqb_spec (8 * l) w) as [E|NE].
  - eapply runs_iff.
    + eapply runs_bind1; [exact P1|apply exec_ret].
    + intros wr. rewrite <- (rows_out ms Bgra Rgb src dst n h w ss ds wr).
      rewrite E. reflexivity.
  - pose proof (runs_loop0 T ms dl h (fun y => (ss * y, ds * y))
      (fun st_ => let '(so, do_) := st_ in
        for_from (Z.to_nat (w - 8 * l)) (8 * l) (fun y => bgra_to_rgb_rest1 src dst so do_ y) ;;
        a <- umul 4 w ;; ss' <- uadd a (ss - 4 * w) ;; so' <- uadd so ss' ;;
        b <- umul 3 w ;; ds' <- uadd b (ds - 3 * w) ;; do' <- uadd do_ ds' ;;
        ret (so', do'))
      (fun y => row n (s_off dst + ds * y + 3 * (8 * l)) (3 * (w - 8 * l))
         (fun j => rowb (ss * y) (3 * (8 * l) + j)))) as L.
    cbv beta in L. rewrite !Z.mul_0_r in L.
    eapply runs_iff.
    + eapply runs_bind; [exact P1|].
      eapply runs_bind1; [|apply exec_ret]. apply L; [|lia].
      intros y Hy. destruct (HR y Hy) as (R1 & R2 & R3 & R4).
      assert (ss * (y + 1) <= ss * h /\ ds * (y + 1) <= ds * h) by nia.
      rewrite !Z.mul_add_distr_l, !Z.mul_1_r in *.
      set (so := ss * y) in *. set (do_ := ds * y) in *. clearbody so do_.
      eapply runs_iff.
      * eapply runs_bind1.
        { apply (runs_for_from T ms dl (Z.to_nat (w - 8 * l)) (8 * l) _
            (fun i => row n (s_off dst + do_ + 3 * i) 3 (fun j => rowb so (3 * i + j)))).
          intros i Hi. apply runs_bgra_rest1; lia. }
        eapply exec_bind0; [apply exec_umul; lia|].
        eapply exec_bind0; [apply exec_uadd; lia|].
        eapply exec_bind0; [apply exec_uadd; lia|].
        eapply exec_bind0; [apply exec_umul; lia|].
        eapply exec_bind0; [apply exec_uadd; lia|].
        eapply exec_bind0; [apply exec_uadd; lia|].
        eapply exec_eq; [apply exec_ret|reflexivity|]. apply f_equal2; lia.
      * intros wr. replace (8 * l + Z.of_nat (Z.to_nat (w - 8 * l))) with (8 * l + (w - 8 * l)) by lia.
        symmetry. apply (row_chunks n (s_off dst + do_) 3 (rowb so) (8 * l) (w - 8 * l)); lia.
    + intros wr. rewrite <- (rows_out ms Bgra Rgb src dst n h w ss ds wr). unfold wunion.
      change (bytes_per_pixel Rgb) with 3.
      assert (E : forall y, row n (s_off dst + ds * y) (3 * w) (rowb (ss * y)) wr <->
         row n (s_off dst + ds * y) (3 * (8 * l)) (rowb (ss * y)) wr \/
         row n (s_off dst + ds * y + 3 * (8 * l)) (3 * (w - 8 * l)) (fun j => rowb (ss * y) (3 * (8 * l) + j)) wr).
      { intros y. rewrite <- row_app by lia. apply row_ext; (auto; lia). }
      split.
      * intros [(y & Hy & H')|(y & Hy & H')]; exists y; split; auto; apply E; auto.
      * intros (y & Hy & H'). apply E in H'. destruct H'; [left|right]; exists y; auto.
Qed.
End S.

Lemma bgr_to_rgb_avx2_ok T : v11_ok T 32 Bgr Rgb bgr_to_rgb_avx2.
Proof.
  intros ms dl HB w q h src ss dst n ds Hq Hw Hh Hs Hd Hss Hds Os Od Fs Fd. subst w.
  apply (runs_rows_mul T ms dl Bgr Rgb 32 src dst n); auto; try reflexivity.
  apply bgr_step32_ok; auto.
Qed.
Lemma rgb_to_bgra_avx2_ok T : v11_ok T 32 Rgb Bgra rgb_to_bgra_avx2.
Proof.
  intros ms dl HB w q h src ss dst n ds Hq Hw Hh Hs Hd Hss Hds Os Od Fs Fd. subst w.
  apply (runs_rows_add T ms dl Rgb Bgra 32 src dst n); auto; try reflexivity.
  apply rgb_step32_ok; auto.
Qed.
