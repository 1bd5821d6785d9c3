(** The scalar RGB to YCbCr kernels write exactly the specified samples. *)
From Coq Require Import ZArith List Bool Lia ZifyBool ZifyNat.
Import ListNotations.
From Verif Require Import Base Exec Area Fmt Common Scalar Spec PixelFacts KernelBase.
Open Scope Z_scope.

(** ** Loops over tiles *)

Definition tile (th tw : Z) (A : area) (y x : Z) : area :=
  Area (a_buf A) (a_base A + th * y * a_stride A + tw * x) (a_stride A) th tw
       (fun y' j' => a_val A (th * y + y') (tw * x + j')).

Definition tiled (m k : Z) (A : area) (t : Z -> Z -> area) : Prop :=
  forall w, in_area A w <->
    exists y, 0 <= y < m /\ exists x, 0 <= x < k /\ in_area (t y x) w.

Lemma tiled_tile th tw m k n b s f : 0 < th -> 0 < tw ->
  tiled m k (Area n b s (th * m) (tw * k) f) (tile th tw (Area n b s (th * m) (tw * k) f)).
Proof. intros H1 H2 w. unfold tile; cbn. apply area_tile; auto. Qed.

Lemma tiled_eq th tw m k A : 0 < th -> 0 < tw -> a_rows A = th * m -> a_cols A = tw * k ->
  tiled m k A (tile th tw A).
Proof.
  intros H1 H2 H3 H4. destruct A as [n b s r c f]; cbn in *. subst. apply tiled_tile; auto.
Qed.

Lemma runs_for2 T ms dl m k (f : Z -> Z -> M unit) As ts :
  Forall2 (tiled m k) As ts ->
  (forall y x, 0 <= y < m -> 0 <= x < k ->
     runs T ms dl (f y x) (in_areas (map (fun t => t y x) ts)) tt) ->
  runs T ms dl (for_ m (fun y => for_ k (fun x => f y x))) (in_areas As) tt.
Proof.
  intros HT H.
  apply (runs_iff _ _ _ _ (fun w => exists y, 0 <= y < m /\ exists x, 0 <= x < k /\
                              in_areas (map (fun t => t y x) ts) w)).
  - apply runs_for with (P := fun y w => exists x, 0 <= x < k /\
                                in_areas (map (fun t => t y x) ts) w). intros y Hy.
    apply runs_for with (P := fun x => in_areas (map (fun t => t y x) ts)).
    intros x Hx. apply H; auto.
  - clear H. intros w. induction HT as [|A t As ts HA HT IH]; cbn [map in_areas].
    + unfold wempty. split; [intros (y & _ & x & _ & []) | intros []].
    + unfold wunion. rewrite <- IH, (HA w). clear. split.
      * intros (y & Hy & x & Hx & [H|H]); [left|right]; exists y; split; auto; exists x; auto.
      * intros [(y & Hy & x & Hx & H)|(y & Hy & x & Hx & H)];
          exists y; split; auto; exists x; auto.
Qed.

Lemma or_iff (A B C D : Prop) : (A <-> C) -> (B <-> D) -> (A \/ B <-> C \/ D).
Proof. tauto. Qed.

(** One pair of bytes. *)
Definition pair2 (a b : Z) (j : Z) : Z := if j =? 0 then a else b.

Section Fwd.
Variable T : target.
Variable ms : list (list Z).
Variable dl : list nat.
Hypothesis HB : bytes_ok ms.

Notation exec := (exec T ms dl).
Notation runs := (runs T ms dl).
Notation fits := (fits ms dl).
Notation src_ok := (src_ok T ms dl).
Notation dst_ok := (dst_ok T ms dl).

Lemma wg_fit s stride rows cols w x y :
  cap ms dl s < usz T -> fits s stride rows (w * cols) -> 0 < w -> 0 <= x < cols -> 0 <= y < rows ->
  exec (wg_index x y w stride) [] (stride * y + x * w) /\
  0 <= stride * y + x * w /\ stride * y + x * w + w <= cap ms dl s.
Proof.
  intros Hl [H1 H2] Hw Hx Hy.
  assert (0 <= stride * y <= (rows - 1) * stride) by nia.
  assert (0 <= x * w /\ x * w + w <= w * cols) by nia.
  split; [|lia]. apply exec_wg_index; lia.
Qed.

(** The same, but for the bytes of the last pixel that are not read. *)
Lemma px_fit smp s stride rows cols x y :
  cap ms dl s < usz T -> fits s stride rows (sampler_depth smp * cols + spare smp) -> 0 <= x < cols -> 0 <= y < rows ->
  exec (wg_index x y (sampler_depth smp) stride) [] (stride * y + x * sampler_depth smp) /\
  0 <= stride * y + x * sampler_depth smp /\
  stride * y + x * sampler_depth smp + sampler_depth smp + spare smp <= cap ms dl s.
Proof.
  intros Hl [H1 H2] Hx Hy.
  assert (0 <= stride * y <= (rows - 1) * stride) by nia.
  assert (0 <= x * sampler_depth smp /\ x * sampler_depth smp + sampler_depth smp <= sampler_depth smp * cols) by (destruct smp; cbn [sampler_depth]; lia).
  assert (0 < sampler_depth smp + spare smp) by (destruct smp; cbn; lia).
  split; [|lia]. apply exec_wg_index; lia.
Qed.

Lemma runs_pack2 s n o a b : dst_ok s n -> 0 <= o -> o + 2 <= cap ms dl s ->
  runs (pack_i32x2 s o a b)
    (in_area (Area n (s_off s + o) 0 1 2 (fun _ j => pair2 (u8 a) (u8 b) j))) tt.
Proof.
  intros (H1 & H2 & _) H3 H4. unfold pack_i32x2. eapply runs_iff.
  - eapply runs_bind; eapply runs_st; eauto; lia.
  - intros w. unfold wunion, in_area, pair2; cbn. split.
    + intros [->| ->]; exists 0; [exists 0|exists 1]; repeat split; try lia; do 2 f_equal; lia.
    + intros (y & j & Hy & Hj & ->). replace y with 0 by lia.
      assert (j = 0 \/ j = 1) as [->| ->] by lia; [left|right]; do 2 f_equal; lia.
Qed.

(** Pixel (x, y) of a packed source slice. *)
Definition kpx (smp : sampler) (s : slice) (stride : Z) (x y : Z) : rgb :=
  pixel3 ms smp s (stride * y + x * sampler_depth smp).

(** The three kinds of destination planes, for an arithmetic [A]. *)
Definition luma_area (A : columns) cs (px : Z -> Z -> rgb) n (s : slice) stride h w : area :=
  Area n (s_off s) stride h w (fun y j => ar_luma (A j) cs (px j y)).
Definition uv_area (A : columns) cs (px : Z -> Z -> rgb) n (s : slice) stride ch cw : area :=
  Area n (s_off s) stride ch (2 * cw) (fun y j =>
    if j mod 2 =? 0 then ar_cb (A (2 * (j / 2))) cs 4 (block_sum px (j / 2) y)
    else ar_cr (A (2 * (j / 2))) cs 4 (block_sum px (j / 2) y)).
Definition u_area (A : columns) cs (px : Z -> Z -> rgb) n (s : slice) stride ch cw : area :=
  Area n (s_off s) stride ch cw (fun y j => ar_cb (A (2 * j)) cs 4 (block_sum px j y)).
Definition v_area (A : columns) cs (px : Z -> Z -> rgb) n (s : slice) stride ch cw : area :=
  Area n (s_off s) stride ch cw (fun y j => ar_cr (A (2 * j)) cs 4 (block_sum px j y)).
Definition u444_area (A : columns) cs (px : Z -> Z -> rgb) n (s : slice) stride h w : area :=
  Area n (s_off s) stride h w (fun y j => ar_cb (A j) cs 1 (px j y)).
Definition v444_area (A : columns) cs (px : Z -> Z -> rgb) n (s : slice) stride h w : area :=
  Area n (s_off s) stride h w (fun y j => ar_cr (A j) cs 1 (px j y)).

Ltac area_dims := unfold luma_area, uv_area, u_area, v_area, u444_area, v444_area;
  cbn [a_rows a_cols]; lia.

Lemma runs_luma_2x2 smp c src ss ybuf n ys ch cw x y :
  src_ok src -> dst_ok ybuf n ->
  fits src ss (2 * ch) (sampler_depth smp * (2 * cw) + spare smp) -> fits ybuf ys (2 * ch) (2 * cw) ->
  0 <= y < ch -> 0 <= x < cw ->
  runs (fwd_luma_2x2 smp (sampler_depth smp) c src ss ybuf ys x y)
    (in_area (tile 2 2 (luma_area spec_cols (cs_of c) (kpx smp src ss) n ybuf ys (2 * ch) (2 * cw)) y x))
    (block_sum (kpx smp src ss) x y).
Proof.
  intros Hs Hd Fs Fd Hy Hx.
  assert (Hdp : 0 < sampler_depth smp) by (destruct smp; cbn; lia).
  assert (Ls : cap ms dl src < usz T) by apply Hs.
  assert (Ld : cap ms dl ybuf < usz T) by apply Hd.
  replace (2 * cw) with (1 * (2 * cw)) in Fd by lia.
  destruct (px_fit smp src ss _ _ (2 * x) (2 * y) Ls Fs ltac:(lia) ltac:(lia)) as (E00 & P00 & Q00).
  destruct (px_fit smp src ss _ _ (2 * x + 1) (2 * y) Ls Fs ltac:(lia) ltac:(lia)) as (E10 & P10 & Q10).
  destruct (px_fit smp src ss _ _ (2 * x) (2 * y + 1) Ls Fs ltac:(lia) ltac:(lia)) as (E01 & P01 & Q01).
  destruct (px_fit smp src ss _ _ (2 * x + 1) (2 * y + 1) Ls Fs ltac:(lia) ltac:(lia)) as (E11 & P11 & Q11).
  destruct (wg_fit ybuf ys _ _ 1 (2 * x) (2 * y) Ld Fd ltac:(lia) ltac:(lia) ltac:(lia)) as (D0 & R0 & _).
  destruct (wg_fit ybuf ys _ _ 1 (2 * x + 1) (2 * y) Ld Fd ltac:(lia) ltac:(lia) ltac:(lia)) as (_ & _ & S0).
  destruct (wg_fit ybuf ys _ _ 1 (2 * x) (2 * y + 1) Ld Fd ltac:(lia) ltac:(lia) ltac:(lia)) as (D1 & R1 & _).
  destruct (wg_fit ybuf ys _ _ 1 (2 * x + 1) (2 * y + 1) Ld Fd ltac:(lia) ltac:(lia) ltac:(lia)) as (_ & _ & S1).
  destruct (pixel3_range ms HB smp src (ss * (2 * y) + 2 * x * sampler_depth smp))
    as (r00 & g00 & b00 & X00 & Hr00 & Hg00 & Hb00).
  destruct (pixel3_range ms HB smp src (ss * (2 * y) + (2 * x + 1) * sampler_depth smp))
    as (r10 & g10 & b10 & X10 & Hr10 & Hg10 & Hb10).
  destruct (pixel3_range ms HB smp src (ss * (2 * y + 1) + 2 * x * sampler_depth smp))
    as (r01 & g01 & b01 & X01 & Hr01 & Hg01 & Hb01).
  destruct (pixel3_range ms HB smp src (ss * (2 * y + 1) + (2 * x + 1) * sampler_depth smp))
    as (r11 & g11 & b11 & X11 & Hr11 & Hg11 & Hb11).
  assert (K : forall c, (-65536 <= XR c <= 65536) /\ (-65536 <= XG c <= 65536) /\
     (-65536 <= XB c <= 65536) /\ 0 <= YO c <= 134217728) by (intros []; vm_compute; intuition congruence).
  specialize (K c). destruct K as (K1 & K2 & K3 & K4).
  unfold is_byte in *.
  unfold fwd_luma_2x2. cbv zeta.
  eapply runs_bind0; [exact E00|].
  eapply runs_bind0; [apply exec_unpack3; auto|].
  rewrite X00. cbv beta iota.
  eapply runs_bind0; [exact E10|].
  eapply runs_bind0; [apply exec_unpack3; auto|].
  rewrite X10. cbv beta iota.
  eapply runs_bind0; [exact D0|].
  eapply runs_bind0; [apply exec_affine; lia|].
  eapply runs_bind0; [apply exec_affine; lia|].
  eapply runs_iff.
  - eapply runs_bind; [apply runs_pack2; eauto; lia|].
    eapply runs_bind0; [exact E01|].
    eapply runs_bind0; [apply exec_unpack3; auto|].
    rewrite X01. cbv beta iota.
    eapply runs_bind0; [exact E11|].
    eapply runs_bind0; [apply exec_unpack3; auto|].
    rewrite X11. cbv beta iota.
    eapply runs_bind0; [exact D1|].
    eapply runs_bind0; [apply exec_affine; lia|].
    eapply runs_bind0; [apply exec_affine; lia|].
    eapply runs_bind1; [apply runs_pack2; eauto; lia|].
    eapply exec_bind0; [apply exec_iadd; lia|].
    eapply exec_bind0; [apply exec_iadd; lia|].
    eapply exec_bind0; [apply exec_iadd; lia|].
    eapply exec_bind0; [apply exec_iadd; lia|].
    eapply exec_bind0; [apply exec_iadd; lia|].
    eapply exec_bind0; [apply exec_iadd; lia|].
    eapply exec_bind0; [apply exec_iadd; lia|].
    eapply exec_bind0; [apply exec_iadd; lia|].
    eapply exec_bind0; [apply exec_iadd; lia|].
    eapply exec_eq; [apply exec_ret|reflexivity|].
    unfold block_sum, kpx. rewrite X00, X10, X01, X11. reflexivity.
  - intros w. rewrite !luma_model by (unfold is_byte; lia).
    rewrite <- X00, <- X10, <- X01, <- X11.
    unfold tile, luma_area; cbn [a_buf a_base a_stride a_rows a_cols a_val].
    rewrite area_rows2. unfold wunion.
    rewrite (area_row _ _ ys 0), (area_row _ (_ + ys) ys 0).
    apply or_iff; (apply area_ext'; try reflexivity; [lia|]);
      intros y' j _ Hj; assert (j = 0 \/ j = 1) as [->| ->] by lia;
      unfold pair2, kpx; cbn [Z.eqb ar_luma spec_arith spec_cols]; do 3 f_equal; lia.
Qed.

Lemma block_sum_range smp src ss x y : exists r g b,
  block_sum (kpx smp src ss) x y = (r, g, b) /\
  0 <= r <= 1020 /\ 0 <= g <= 1020 /\ 0 <= b <= 1020.
Proof.
  unfold block_sum, kpx.
  destruct (pixel3_range ms HB smp src (ss * (2 * y) + 2 * x * sampler_depth smp))
    as (r00 & g00 & b00 & -> & Hr00 & Hg00 & Hb00).
  destruct (pixel3_range ms HB smp src (ss * (2 * y) + (2 * x + 1) * sampler_depth smp))
    as (r10 & g10 & b10 & -> & Hr10 & Hg10 & Hb10).
  destruct (pixel3_range ms HB smp src (ss * (2 * y + 1) + 2 * x * sampler_depth smp))
    as (r01 & g01 & b01 & -> & Hr01 & Hg01 & Hb01).
  destruct (pixel3_range ms HB smp src (ss * (2 * y + 1) + (2 * x + 1) * sampler_depth smp))
    as (r11 & g11 & b11 & -> & Hr11 & Hg11 & Hb11).
  unfold is_byte in *. cbn [add_rgb].
  do 3 eexists. split; [reflexivity|]. lia.
Qed.

Lemma fwd_coef_range c :
  (-65536 <= XR c <= 65536) /\ (-65536 <= XG c <= 65536) /\ (-65536 <= XB c <= 65536) /\
  (0 <= YO c <= 134217728) /\ (-65536 <= YR c <= 65536) /\ (-65536 <= YG c <= 65536) /\
  (-65536 <= YB c <= 65536) /\ (-65536 <= ZG c <= 65536) /\ (-65536 <= ZB c <= 65536).
Proof. destruct c; vm_compute; intuition congruence. Qed.

Lemma co_range : 0 <= FIX18_C_HALF + (FIX18_HALF - 1) <= 134217728 /\
                 0 <= FIX16_C_HALF + (FIX16_HALF - 1) <= 134217728.
Proof. vm_compute; intuition congruence. Qed.

Lemma runs_rgb_to_nv12 smp c w h cw ch src ss ybuf ny ys uvbuf nuv uvs :
  w = 2 * cw -> h = 2 * ch ->
  src_ok src -> dst_ok ybuf ny -> dst_ok uvbuf nuv ->
  fits src ss h (sampler_depth smp * w + spare smp) -> fits ybuf ys h w -> fits uvbuf uvs ch w ->
  runs (rgb_to_nv12 smp (sampler_depth smp) c w h ss src (ys, uvs) (ybuf, uvbuf))
    (in_areas [luma_area spec_cols (cs_of c) (kpx smp src ss) ny ybuf ys h w;
               uv_area spec_cols (cs_of c) (kpx smp src ss) nuv uvbuf uvs ch cw]) tt.
Proof.
  intros -> -> Hs Hy Huv Fs Fy Fuv. unfold rgb_to_nv12.
  eapply runs_bind0; [apply exec_fwd_yb|].
  eapply runs_bind0; [apply exec_fwd_zb|].
  cbv zeta.
  replace (2 * ch / 2) with ch by (rewrite Z.mul_comm, Z.div_mul; lia).
  replace (2 * cw / 2) with cw by (rewrite Z.mul_comm, Z.div_mul; lia).
  eapply runs_for2.
  { apply Forall2_cons; [apply tiled_eq with (th := 2) (tw := 2); area_dims|].
    apply Forall2_cons; [apply tiled_eq with (th := 1) (tw := 2); area_dims|]. apply Forall2_nil. }
  intros y x Hy' Hx.
  destruct (block_sum_range smp src ss x y) as (r & g & b & E & Hr & Hg & Hb).
  destruct (fwd_coef_range c) as (_ & _ & _ & _ & K1 & K2 & K3 & K4 & K5).
  destruct co_range as [K6 _].
  destruct (wg_fit uvbuf uvs ch cw 2 x y) as (D & P & Q); auto; try lia. { apply Huv. }
  cbn [map in_areas].
  eapply runs_iff.
  - eapply runs_bind; [apply runs_luma_2x2; eauto|].
    rewrite E. cbv beta iota.
    eapply runs_bind0; [exact D|].
    eapply runs_bind0; [apply exec_affine; lia|].
    eapply runs_bind0; [apply exec_affine; lia|].
    apply runs_pack2; eauto.
  - intros wr. unfold wunion, wempty.
    apply or_iff; [reflexivity|].
    rewrite or_comm. transitivity (in_area (tile 1 2 (uv_area spec_cols (cs_of c) (kpx smp src ss) nuv uvbuf uvs ch cw) y x) wr).
    2:{ split; [auto|intros [[]|]; auto]. }
    unfold tile, uv_area; cbn [a_buf a_base a_stride a_rows a_cols a_val].
    rewrite (area_row _ _ uvs 0).
    rewrite cb4_model, cr4_model by lia. rewrite <- E.
    apply area_ext'; try reflexivity; [lia|].
    intros y' j Hy'' Hj. replace y' with 0 by lia. replace (1 * y + 0) with y by lia.
    assert (j = 0 \/ j = 1) as [->| ->] by lia; unfold pair2; cbn [Z.eqb ar_cb ar_cr spec_arith spec_cols].
    + replace ((2 * x + 0) mod 2 =? 0) with true by (symmetry; apply Z.eqb_eq; rewrite Z.add_0_r, Z.mul_comm, Z.mod_mul; lia).
      replace ((2 * x + 0) / 2) with x by (rewrite Z.add_0_r, Z.mul_comm, Z.div_mul; lia). reflexivity.
    + replace ((2 * x + 1) mod 2) with 1 by (rewrite Z.mul_comm, Z.add_comm, Z.mod_add; [reflexivity|lia]).
      replace ((2 * x + 1) / 2) with x by (rewrite Z.mul_comm, Z.div_add_l; [|lia]; change (1 / 2) with 0; lia). reflexivity.
Qed.

Lemma runs_rgb_to_i420 smp c w h cw ch src ss ybuf ny ys ubuf nu us vbuf nv vs :
  w = 2 * cw -> h = 2 * ch ->
  src_ok src -> dst_ok ybuf ny -> dst_ok ubuf nu -> dst_ok vbuf nv ->
  fits src ss h (sampler_depth smp * w + spare smp) -> fits ybuf ys h w -> fits ubuf us ch cw -> fits vbuf vs ch cw ->
  runs (rgb_to_i420 smp (sampler_depth smp) c w h ss src (ys, us, vs) (ybuf, ubuf, vbuf))
    (in_areas [luma_area spec_cols (cs_of c) (kpx smp src ss) ny ybuf ys h w;
               u_area spec_cols (cs_of c) (kpx smp src ss) nu ubuf us ch cw;
               v_area spec_cols (cs_of c) (kpx smp src ss) nv vbuf vs ch cw]) tt.
Proof.
  intros -> -> Hs Hy Hu Hv Fs Fy Fu Fv. unfold rgb_to_i420.
  eapply runs_bind0; [apply exec_fwd_yb|].
  eapply runs_bind0; [apply exec_fwd_zb|].
  cbv zeta.
  replace (2 * ch / 2) with ch by (rewrite Z.mul_comm, Z.div_mul; lia).
  replace (2 * cw / 2) with cw by (rewrite Z.mul_comm, Z.div_mul; lia).
  eapply runs_for2.
  { apply Forall2_cons; [apply tiled_eq with (th := 2) (tw := 2); area_dims|].
    repeat (apply Forall2_cons; [apply tiled_eq with (th := 1) (tw := 1); area_dims|]). apply Forall2_nil. }
  intros y x Hy' Hx.
  destruct (block_sum_range smp src ss x y) as (r & g & b & E & Hr & Hg & Hb).
  destruct (fwd_coef_range c) as (_ & _ & _ & _ & K1 & K2 & K3 & K4 & K5).
  destruct co_range as [K6 _].
  replace cw with (1 * cw) in Fu, Fv by lia.
  destruct (wg_fit ubuf us ch cw 1 x y) as (Du & Pu & Qu); auto; try lia. { apply Hu. }
  destruct (wg_fit vbuf vs ch cw 1 x y) as (Dv & Pv & Qv); auto; try lia. { apply Hv. }
  destruct Hu as (Hu1 & Hu2 & _). destruct Hv as (Hv1 & Hv2 & _).
  cbn [map in_areas].
  eapply runs_iff.
  - eapply runs_bind; [apply runs_luma_2x2; eauto|].
    rewrite E. cbv beta iota.
    eapply runs_bind0; [exact Du|].
    eapply runs_bind0; [exact Dv|].
    eapply runs_bind0; [apply exec_affine; lia|].
    eapply runs_bind; [eapply runs_st; eauto; lia|].
    eapply runs_bind0; [apply exec_affine; lia|].
    eapply runs_st; eauto; lia.
  - intros wr. unfold wunion, wempty.
    rewrite cb4_model, cr4_model by lia. rewrite <- E.
    apply or_iff; [reflexivity|].
    assert (HU : wr = (nu, s_off ubuf + (us * y + x * 1), blue_diff (cs_of c) 4 (block_sum (kpx smp src ss) x y)) <->
      in_area (tile 1 1 (u_area spec_cols (cs_of c) (kpx smp src ss) nu ubuf us ch cw) y x) wr).
    { unfold tile, u_area; cbn [a_buf a_base a_stride a_rows a_cols a_val].
      rewrite <- area_byte with (s := us). apply area_ext'; try reflexivity; [lia|].
      intros y' j' Hy'' Hj'. cbn [ar_cb spec_arith spec_cols]. do 2 f_equal; lia. }
    assert (HV : wr = (nv, s_off vbuf + (vs * y + x * 1), red_diff (cs_of c) 4 (block_sum (kpx smp src ss) x y)) <->
      in_area (tile 1 1 (v_area spec_cols (cs_of c) (kpx smp src ss) nv vbuf vs ch cw) y x) wr).
    { unfold tile, v_area; cbn [a_buf a_base a_stride a_rows a_cols a_val].
      rewrite <- area_byte with (s := vs). apply area_ext'; try reflexivity; [lia|].
      intros y' j' Hy'' Hj'. cbn [ar_cr spec_arith spec_cols]. do 2 f_equal; lia. }
    rewrite HU, HV. tauto.
Qed.

Lemma runs_rgb_to_i444 smp c w h src ss ybuf ny ys ubuf nu us vbuf nv vs :
  src_ok src -> dst_ok ybuf ny -> dst_ok ubuf nu -> dst_ok vbuf nv ->
  fits src ss h (sampler_depth smp * w + spare smp) -> fits ybuf ys h w -> fits ubuf us h w -> fits vbuf vs h w ->
  runs (rgb_to_i444 smp (sampler_depth smp) c w h ss src (ys, us, vs) (ybuf, ubuf, vbuf))
    (in_areas [luma_area spec_cols (cs_of c) (kpx smp src ss) ny ybuf ys h w;
               u444_area spec_cols (cs_of c) (kpx smp src ss) nu ubuf us h w;
               v444_area spec_cols (cs_of c) (kpx smp src ss) nv vbuf vs h w]) tt.
Proof.
  intros Hs Hy Hu Hv Fs Fy Fu Fv. unfold rgb_to_i444.
  eapply runs_bind0; [apply exec_fwd_yb|].
  eapply runs_bind0; [apply exec_fwd_zb|].
  cbv zeta.
  eapply runs_for2.
  { repeat (apply Forall2_cons; [apply tiled_eq with (th := 1) (tw := 1); area_dims|]). apply Forall2_nil. }
  intros y x Hy' Hx.
  destruct (pixel3_range ms HB smp src (ss * y + x * sampler_depth smp)) as (r & g & b & E & Hr & Hg & Hb).
  destruct (fwd_coef_range c) as (K7 & K8 & K9 & K0 & K1 & K2 & K3 & K4 & K5).
  destruct co_range as [_ K6].
  replace w with (1 * w) in Fy, Fu, Fv by lia.
  destruct (px_fit smp src ss h w x y) as (Ds & Ps & Qs); auto. { apply Hs. }
  destruct (wg_fit ybuf ys h w 1 x y) as (Dy & Py & Qy); auto; try lia. { apply Hy. }
  destruct (wg_fit ubuf us h w 1 x y) as (Du & Pu & Qu); auto; try lia. { apply Hu. }
  destruct (wg_fit vbuf vs h w 1 x y) as (Dv & Pv & Qv); auto; try lia. { apply Hv. }
  destruct Hu as (Hu1 & Hu2 & _). destruct Hv as (Hv1 & Hv2 & _). destruct Hy as (Hy1 & Hy2 & _).
  unfold is_byte in *.
  cbn [map in_areas].
  eapply runs_iff.
  - eapply runs_bind0; [exact Ds|].
    eapply runs_bind0; [apply exec_unpack3; auto|].
    rewrite E. cbv beta iota.
    eapply runs_bind0; [exact Dy|].
    eapply runs_bind0; [exact Du|].
    eapply runs_bind0; [exact Dv|].
    eapply runs_bind0; [apply exec_affine; lia|].
    eapply runs_bind; [eapply runs_st; eauto; lia|].
    eapply runs_bind0; [apply exec_affine; lia|].
    eapply runs_bind; [eapply runs_st; eauto; lia|].
    eapply runs_bind0; [apply exec_affine; lia|].
    eapply runs_st; eauto; lia.
  - intros wr. unfold wunion, wempty.
    rewrite luma_model, cb_model, cr_model by (unfold is_byte; lia). rewrite <- E.
    change (pixel3 ms smp src (ss * y + x * sampler_depth smp)) with (kpx smp src ss x y).
    assert (HY : wr = (ny, s_off ybuf + (ys * y + x * 1), luma (cs_of c) (kpx smp src ss x y)) <->
      in_area (tile 1 1 (luma_area spec_cols (cs_of c) (kpx smp src ss) ny ybuf ys h w) y x) wr).
    { unfold tile, luma_area; cbn [a_buf a_base a_stride a_rows a_cols a_val].
      rewrite <- area_byte with (s := ys). apply area_ext'; try reflexivity; [lia|].
      intros y' j' Hy'' Hj'. cbn [ar_luma spec_arith spec_cols]. do 2 f_equal; lia. }
    assert (HU : wr = (nu, s_off ubuf + (us * y + x * 1), blue_diff (cs_of c) 1 (kpx smp src ss x y)) <->
      in_area (tile 1 1 (u444_area spec_cols (cs_of c) (kpx smp src ss) nu ubuf us h w) y x) wr).
    { unfold tile, u444_area; cbn [a_buf a_base a_stride a_rows a_cols a_val].
      rewrite <- area_byte with (s := us). apply area_ext'; try reflexivity; [lia|].
      intros y' j' Hy'' Hj'. cbn [ar_cb spec_arith spec_cols]. do 2 f_equal; lia. }
    assert (HV : wr = (nv, s_off vbuf + (vs * y + x * 1), red_diff (cs_of c) 1 (kpx smp src ss x y)) <->
      in_area (tile 1 1 (v444_area spec_cols (cs_of c) (kpx smp src ss) nv vbuf vs h w) y x) wr).
    { unfold tile, v444_area; cbn [a_buf a_base a_stride a_rows a_cols a_val].
      rewrite <- area_byte with (s := vs). apply area_ext'; try reflexivity; [lia|].
      intros y' j' Hy'' Hj'. cbn [ar_cr spec_arith spec_cols]. do 2 f_equal; lia. }
    rewrite HY, HU, HV. tauto.
Qed.

End Fwd.
