(** From kernels to converters: every wrapper applied to a correct kernel converts
    the image described by its arguments. *)
From Coq Require Import ZArith List Bool Lia ZifyBool ZifyNat.
Import ListNotations.
From Verif Require Import Base Exec Area Fmt Common Scalar Wrappers Lib Spec ApiSpec Api PixelFacts
  KernelBase ForwardProofs BackwardProofs ReorderProofs WrapperFacts.
Open Scope Z_scope.
Ltac Zify.zify_post_hook ::= Z.div_mod_to_equations.

(** ** What a kernel has to do *)

Definition k12_ok (T : target) (A : Z -> columns) (slack : Z -> Z) (smp : sampler) (c : colorimetry)
           (k : kernel_1_2) : Prop :=
  forall ms dl, bytes_ok ms -> forall w h cw ch src ss ybuf ny ys uvbuf nuv uvs,
  0 < cw -> 0 < ch -> w = 2 * cw -> h = 2 * ch ->
  src_ok T ms dl src -> dst_ok T ms dl ybuf ny -> dst_ok T ms dl uvbuf nuv ->
  fits ms dl src ss h (sampler_depth smp * w + slack w) ->
  fits ms dl ybuf ys h w -> fits ms dl uvbuf uvs ch w ->
  runs T ms dl (k w h ss src (ys, uvs) (ybuf, uvbuf))
    (in_areas [luma_area (A w) (cs_of c) (kpx ms smp src ss) ny ybuf ys h w;
               uv_area (A w) (cs_of c) (kpx ms smp src ss) nuv uvbuf uvs ch cw]) tt.

Definition k420_ok (T : target) (A : Z -> columns) (slack : Z -> Z) (smp : sampler) (c : colorimetry)
           (k : kernel_1_3) : Prop :=
  forall ms dl, bytes_ok ms -> forall w h cw ch src ss ybuf ny ys ubuf nu us vbuf nv vs,
  0 < cw -> 0 < ch -> w = 2 * cw -> h = 2 * ch ->
  src_ok T ms dl src -> dst_ok T ms dl ybuf ny -> dst_ok T ms dl ubuf nu -> dst_ok T ms dl vbuf nv ->
  fits ms dl src ss h (sampler_depth smp * w + slack w) ->
  fits ms dl ybuf ys h w -> fits ms dl ubuf us ch cw -> fits ms dl vbuf vs ch cw ->
  runs T ms dl (k w h ss src (ys, us, vs) (ybuf, ubuf, vbuf))
    (in_areas [luma_area (A w) (cs_of c) (kpx ms smp src ss) ny ybuf ys h w;
               u_area (A w) (cs_of c) (kpx ms smp src ss) nu ubuf us ch cw;
               v_area (A w) (cs_of c) (kpx ms smp src ss) nv vbuf vs ch cw]) tt.

Definition k444_ok (T : target) (A : Z -> columns) (slack : Z -> Z) (smp : sampler) (c : colorimetry)
           (k : kernel_1_3) : Prop :=
  forall ms dl, bytes_ok ms -> forall w h src ss ybuf ny ys ubuf nu us vbuf nv vs,
  0 < w -> 0 < h ->
  src_ok T ms dl src -> dst_ok T ms dl ybuf ny -> dst_ok T ms dl ubuf nu -> dst_ok T ms dl vbuf nv ->
  fits ms dl src ss h (sampler_depth smp * w + slack w) ->
  fits ms dl ybuf ys h w -> fits ms dl ubuf us h w -> fits ms dl vbuf vs h w ->
  runs T ms dl (k w h ss src (ys, us, vs) (ybuf, ubuf, vbuf))
    (in_areas [luma_area (A w) (cs_of c) (kpx ms smp src ss) ny ybuf ys h w;
               u444_area (A w) (cs_of c) (kpx ms smp src ss) nu ubuf us h w;
               v444_area (A w) (cs_of c) (kpx ms smp src ss) nv vbuf vs h w]) tt.

Definition k21_ok (T : target) (A : Z -> columns) (pf : pixel_format) (c : colorimetry)
           (k : kernel_2_1) : Prop :=
  forall ms dl, bytes_ok ms -> forall w h cw ch ybuf ys uvbuf uvs dst n ds,
  0 < cw -> 0 < ch -> w = 2 * cw -> h = 2 * ch ->
  src_ok T ms dl ybuf -> src_ok T ms dl uvbuf -> dst_ok T ms dl dst n ->
  fits ms dl ybuf ys h w -> fits ms dl uvbuf uvs ch w -> fits ms dl dst ds h (bytes_per_pixel pf * w) ->
  runs T ms dl (k w h (ys, uvs) (ybuf, uvbuf) ds dst)
    (in_areas [out_area pf (nv12_col ms (A w) (cs_of c) ys uvs ybuf uvbuf) n dst ds h w]) tt.

Definition k420r_ok (T : target) (A : Z -> columns) (pf : pixel_format) (c : colorimetry)
           (k : kernel_3_1) : Prop :=
  forall ms dl, bytes_ok ms -> forall w h cw ch ybuf ys ubuf us vbuf vs dst n ds,
  0 < cw -> 0 < ch -> w = 2 * cw -> h = 2 * ch ->
  src_ok T ms dl ybuf -> src_ok T ms dl ubuf -> src_ok T ms dl vbuf -> dst_ok T ms dl dst n ->
  fits ms dl ybuf ys h w -> fits ms dl ubuf us ch cw -> fits ms dl vbuf vs ch cw ->
  fits ms dl dst ds h (bytes_per_pixel pf * w) ->
  runs T ms dl (k w h (ys, us, vs) (ybuf, ubuf, vbuf) ds dst)
    (in_areas [out_area pf (i420_col ms (A w) (cs_of c) ys us vs ybuf ubuf vbuf) n dst ds h w]) tt.

Definition k444r_ok (T : target) (A : Z -> columns) (pf : pixel_format) (c : colorimetry)
           (k : kernel_3_1) : Prop :=
  forall ms dl, bytes_ok ms -> forall w h ybuf ys ubuf us vbuf vs dst n ds,
  0 < w -> 0 < h ->
  src_ok T ms dl ybuf -> src_ok T ms dl ubuf -> src_ok T ms dl vbuf -> dst_ok T ms dl dst n ->
  fits ms dl ybuf ys h w -> fits ms dl ubuf us h w -> fits ms dl vbuf vs h w ->
  fits ms dl dst ds h (bytes_per_pixel pf * w) ->
  runs T ms dl (k w h (ys, us, vs) (ybuf, ubuf, vbuf) ds dst)
    (in_areas [out_area pf (i444_col ms (A w) (cs_of c) ys us vs ybuf ubuf vbuf) n dst ds h w]) tt.

Definition k11_ok (T : target) (slack : Z -> Z) (spf dpf : pixel_format) (k : kernel_1_1) : Prop :=
  forall ms dl, bytes_ok ms -> forall w h src ss dst n ds,
  0 < w -> 0 < h < usz T -> 2 * (bytes_per_pixel dpf * w) < usz T ->
  src_ok T ms dl src -> dst_ok T ms dl dst n ->
  bytes_per_pixel spf * w <= ss -> bytes_per_pixel dpf * w <= ds ->
  ss * h < usz T -> ds * h < usz T ->
  fits ms dl src ss h (bytes_per_pixel spf * w + slack w) -> fits ms dl dst ds h (bytes_per_pixel dpf * w) ->
  runs T ms dl (k w h ss src ds dst)
    (in_areas [out_area dpf (pcol ms spf src ss) n dst ds h w]) tt.

(** ** The converted image as a list of areas *)

Fixpoint areas_from (val : nat -> Z -> Z -> Z) (p : nat) (gs : list geom) : list area :=
  match gs with
  | [] => []
  | g :: gs' => Area (g_buf g) (g_base g) (g_stride g) (g_rows g) (g_row g) (val p)
                :: areas_from val (S p) gs'
  end.
Definition image_areas (A : columns) (src dst : image) (w h : Z) (ms : list (list Z)) : list area :=
  areas_from (expected A src dst w h ms) 0 (image_planes dst w h).

(** ** What the wrappers check *)

(** [lens] are the lengths of the buffers, [both] tells that both images are packed. *)
Definition image_accepted (both : bool) (lens : nat -> Z) (im : image) (w h : Z) : bool :=
  match i_pf im, i_planes im =? 1 with
  | Nv12, true =>
      let s := eff_stride (i_strides im) 0 w in
      (s * h <=? lens 0%nat) && accepts (s * h) s h w && accepts (lens 0%nat - s * h) s (h / 2) w
  | _, _ =>
      forallb (fun g => accepts (lens (g_buf g)) (g_stride g) (g_rows g)
                                (if both then w else g_row g))
              (image_planes im w h)
  end.

(** ** Arguments *)

(** [a] holds the strides of an image with [n] planes. *)
Definition strides_view (T : target) (a : arr Z) (st : option (list Z)) (n : Z) : Prop :=
  forall i, (Z.of_nat i < n) -> exists x, has a (Z.of_nat i) x /\ usz_range T x /\
    forall row, compute_stride x row = eff_stride st i row.
(** [a] holds slices of the (claimed) lengths [lens] of the first [n] buffers (Rust slices have at
    most [isize_max T] bytes; a few more are allowed for the sake of [PadFacts]). *)
Definition slices_view (T : target) (a : arr slice) (mk : nat -> plane) (bufs : list (list Z))
           (lens : nat -> Z) (n : Z) : Prop :=
  forall i, (Z.of_nat i < n) ->
    has a (Z.of_nat i) (Slice (mk i) 0 (lens i)) /\ buf_len bufs i <= lens i <= isize_max T + 8.

Lemma runs_eqv {A} T ms dl (c c' : M A) P v :
  (forall m, c T m = c' T m) -> runs T ms dl c' P v -> runs T ms dl c P v.
Proof.
  intros E (ws & H & HP). exists ws. split; auto. intros m Hm. rewrite E. apply H; auto.
Qed.

Lemma eff_stride_range T st i row n a :
  strides_view T a st n -> (Z.of_nat i < n) -> usz_range T row -> usz_range T (eff_stride st i row).
Proof.
  intros H Hi Hr. destruct (H i Hi) as (x & _ & Hx & E). rewrite <- E.
  unfold compute_stride. destruct (x =? 0); auto.
Qed.

Lemma little_target T : is_target T -> big T = false.
Proof. intros [[_ L]|[_ L]]; exact L. Qed.

Lemma isize_usz T : is_target T -> 0 <= isize_max T /\ 2 * isize_max T < usz T - 1 /\ isize_max T + 8 < usz T.
Proof. unfold isize_max. intros [[-> _]|[-> _]]; lia. Qed.

Lemma stride_ge s w h : 1 < h -> s + w * (h - 1) <= s * h -> w <= s.
Proof. nia. Qed.

Section Conv.
Variable T : target.
Hypothesis HT : is_target T.
Variable ms : list (list Z).
Variable ds0 : list (list Z).
Hypothesis HB : bytes_ok ms.
Let dl := map (@length Z) ds0.
Variables w h : Z.
Hypothesis Hw : 0 < w < usz T.
Hypothesis Hh : 0 < h < usz T.
Variables src dst : image.
Variables ss ds : arr Z.
Variables sb db : arr slice.
Variables sl dln : nat -> Z.
Let nsp := i_planes src.
Let ndp := i_planes dst.
Hypothesis Hss : strides_view T ss (i_strides src) nsp.
Hypothesis Hds : strides_view T ds (i_strides dst) ndp.
Hypothesis Hsb : slices_view T sb Src ms sl nsp.
Hypothesis Hdb : slices_view T db Dst ds0 dln ndp.

Lemma plane_len_src n : plane_len ms dl (Src n) = buf_len ms n.
Proof. reflexivity. Qed.
Lemma plane_len_dst n : plane_len ms dl (Dst n) = buf_len ds0 n.
Proof.
  unfold plane_len, buf_len, dl. f_equal.
  replace 0%nat with (@length Z []) by reflexivity. apply map_nth.
Qed.

Lemma cap_src n off len : buf_len ms n <= off + len ->
  cap ms dl (Slice (Src n) off len) = buf_len ms n - off.
Proof. intros H. unfold cap. cbn [s_len s_plane s_off]. rewrite plane_len_src. lia. Qed.
Lemma cap_dst n off len : buf_len ds0 n <= off + len ->
  cap ms dl (Slice (Dst n) off len) = buf_len ds0 n - off.
Proof. intros H. unfold cap. cbn [s_len s_plane s_off]. rewrite plane_len_dst. lia. Qed.

Lemma src_ok_i i : Z.of_nat i < nsp -> src_ok T ms dl (Slice (Src i) 0 (sl i)).
Proof.
  intros Hi. destruct (Hsb i Hi) as [_ [H1 H2]]. pose proof (isize_usz T HT).
  unfold src_ok, view_ok. rewrite cap_src by lia. cbn [s_off].
  assert (0 <= buf_len ms i) by (unfold buf_len; lia).
  repeat split; try lia; [exists i; reflexivity|apply little_target, HT].
Qed.
Lemma dst_ok_i i : Z.of_nat i < ndp -> dst_ok T ms dl (Slice (Dst i) 0 (dln i)) i.
Proof.
  intros Hi. destruct (Hdb i Hi) as [_ [H1 H2]]. pose proof (isize_usz T HT).
  unfold dst_ok, view_ok. rewrite cap_dst by lia. cbn [s_off].
  assert (0 <= buf_len ds0 i) by (unfold buf_len; lia).
  repeat split; try lia; try apply little_target, HT.
Qed.

Lemma fits_src i stride rows cols : Z.of_nat i < nsp -> 0 <= stride ->
  (rows - 1) * stride + cols <= buf_len ms i -> fits ms dl (Slice (Src i) 0 (sl i)) stride rows cols.
Proof.
  intros Hi H0 H. destruct (Hsb i Hi) as [_ [H1 H2]]. unfold fits. rewrite cap_src by lia. lia.
Qed.
Lemma fits_dst i stride rows cols : Z.of_nat i < ndp -> 0 <= stride ->
  (rows - 1) * stride + cols <= buf_len ds0 i -> fits ms dl (Slice (Dst i) 0 (dln i)) stride rows cols.
Proof.
  intros Hi H0 H. destruct (Hdb i Hi) as [_ [H1 H2]]. unfold fits. rewrite cap_dst by lia. lia.
Qed.

(** The two parts of a one-plane NV12 buffer. *)
Lemma src_ok_lo n : 0 < nsp -> 0 <= n -> src_ok T ms dl (Slice (Src 0) 0 n).
Proof.
  intros Hi Hn. destruct (Hsb 0%nat ltac:(lia)) as [_ [H1 H2]]. pose proof (isize_usz T HT).
  assert (0 <= buf_len ms 0) by (unfold buf_len; lia).
  unfold src_ok, view_ok, cap. cbn [s_off s_len s_plane]. rewrite plane_len_src.
  repeat split; try lia; [exists 0%nat; reflexivity|apply little_target, HT].
Qed.
Lemma src_ok_hi n : 0 < nsp -> 0 <= n <= buf_len ms 0 -> src_ok T ms dl (Slice (Src 0) n (sl 0%nat - n)).
Proof.
  intros Hi Hn. destruct (Hsb 0%nat ltac:(lia)) as [_ [H1 H2]]. pose proof (isize_usz T HT).
  unfold src_ok, view_ok. rewrite cap_src by lia. cbn [s_off].
  repeat split; try lia; [exists 0%nat; reflexivity|apply little_target, HT].
Qed.
Lemma dst_ok_lo n : 0 < ndp -> 0 <= n -> dst_ok T ms dl (Slice (Dst 0) 0 n) 0.
Proof.
  intros Hi Hn. destruct (Hdb 0%nat ltac:(lia)) as [_ [H1 H2]]. pose proof (isize_usz T HT).
  assert (0 <= buf_len ds0 0) by (unfold buf_len; lia).
  unfold dst_ok, view_ok, cap. cbn [s_off s_len s_plane]. rewrite plane_len_dst.
  repeat split; try lia; try apply little_target, HT.
Qed.
Lemma dst_ok_hi n : 0 < ndp -> 0 <= n <= buf_len ds0 0 -> dst_ok T ms dl (Slice (Dst 0) n (dln 0%nat - n)) 0.
Proof.
  intros Hi Hn. destruct (Hdb 0%nat ltac:(lia)) as [_ [H1 H2]]. pose proof (isize_usz T HT).
  unfold dst_ok, view_ok. rewrite cap_dst by lia. cbn [s_off].
  repeat split; try lia; try apply little_target, HT.
Qed.

(** ** Pixels of the source *)
Lemma nth_idx (l : list Z) a b d : a = b -> nth (Z.to_nat a) l d = nth (Z.to_nat b) l d.
Proof. intros ->. reflexivity. Qed.

Definition kfmt (smp : sampler) : pixel_format :=
  match smp with S_Argb => Argb | S_Bgra => Bgra | S_Bgr => Bgr end.

Lemma depth_kfmt smp : sampler_depth smp = bytes_per_pixel (kfmt smp).
Proof. destruct smp; reflexivity. Qed.

Lemma kpx_source A smp len x y : i_pf src = kfmt smp ->
  kpx ms smp (Slice (Src 0) 0 len) (eff_stride (i_strides src) 0 (bytes_per_pixel (kfmt smp) * w)) x y
  = source_rgb A src w h ms x y.
Proof.
  intros E. unfold source_rgb, image_planes. rewrite E.
  destruct smp; cbn [kfmt is_rgb planes rgb_pixel component_offsets nth_plane nth bytes_per_pixel
                     kpx pixel3 sampler_offsets sampler_depth];
    unfold kpx, pixel3, rgb_pixel, byte, sample, nth_plane;
    cbn [sampler_offsets component_offsets s_plane s_off nth g_base g_stride g_buf sampler_depth bytes_per_pixel];
    (apply (f_equal2 pair); [apply (f_equal2 pair)|]; apply nth_idx; lia).
Qed.

Lemma block_sum_ext f g x y : (forall x y, f x y = g x y) -> block_sum f x y = block_sum g x y.
Proof. intros E. unfold block_sum. rewrite !E. reflexivity. Qed.

Definition pixel_areas_eq := area_ext'.

Lemma pcol_source A pf len x y : is_rgb pf = true -> i_pf src = pf ->
  pcol ms pf (Slice (Src 0) 0 len) (eff_stride (i_strides src) 0 (bytes_per_pixel pf * w)) x y
  = source_rgb A src w h ms x y.
Proof.
  intros R E. unfold source_rgb, image_planes. rewrite E, R.
  destruct pf; try discriminate;
    unfold pcol, rgb_pixel, byte, sample, nth_plane;
    cbn [planes component_offsets s_plane s_off nth g_base g_stride g_buf bytes_per_pixel];
    (apply (f_equal2 pair); [apply (f_equal2 pair)|]; apply nth_idx; lia).
Qed.

(** What is asked from a converter: it checks [image_accepted] on both images, and when
    the images are where they should be, its kernel writes exactly the converted image. *)
Definition conv_ok (both : bool) (A : columns) (slack : Z) (f : converter) : Prop :=
  exists kcall : M unit,
  (forall m, f w h (nsp - 1) ss sb (ndp - 1) ds db T m =
     if image_accepted both sl src w h && image_accepted both dln dst w h
     then (kcall ;; ret true) T m else Ok false m) /\
  (image_in slack src w h ms -> image_in 0 dst w h ds0 ->
   image_accepted both sl src w h = true -> image_accepted both dln dst w h = true ->
   (both = true -> rows_apart src w h /\ rows_apart dst w h) ->
   runs T ms dl kcall (in_areas (image_areas A src dst w h ms)) tt).

Lemma colors_cs c cs : cs <> CsRgb -> c = colorimetry_of cs -> cs_of c = cs.
Proof. intros H ->. destruct cs; try reflexivity. congruence. Qed.

Ltac pixel_of H := let x := fresh "x" in let y := fresh "y" in intros x y; apply H.

(** ** RGB to NV12 *)
Lemma rgb_nv12_conv A slack smp c k :
  k12_ok T A slack smp c k ->
  i_pf src = kfmt smp -> nsp = 1 -> i_pf dst = Nv12 -> (ndp = 1 \/ ndp = 2) -> i_cs dst = cs_of c ->
  w mod 2 = 0 -> h mod 2 = 0 ->
  sampler_depth smp * w < usz T ->
  (ndp = 1 -> eff_stride (i_strides dst) 0 w * h < usz T) ->
  conv_ok false (A w) (slack w) (rgb_nv12_w (sampler_depth smp) k).
Proof.
  intros K Ps Ns Pd Nd Cd We He Hov Hov1. unfold conv_ok.
  pose proof (isize_usz T HT) as [I1 I2].
  destruct (Hss 0%nat ltac:(lia)) as (s0 & Hs0 & Us0 & Es0).
  destruct (Hsb 0%nat ltac:(lia)) as [Hb0 [Lb0 Mb0]].
  destruct (Hds 0%nat ltac:(lia)) as (d0 & Hd0 & Ud0 & Ed0).
  destruct (Hdb 0%nat ltac:(lia)) as [He0 [Le0 Me0]].
  change (Z.of_nat 0) with 0 in *.
  assert (Dsmp : 3 <= sampler_depth smp <= 4) by (destruct smp; cbn; lia).
  assert (Hdr : 0 <= sampler_depth smp * w) by nia.
  assert (B0 : 0 <= buf_len ms 0) by (unfold buf_len; lia).
  assert (B1 : 0 <= buf_len ds0 0) by (unfold buf_len; lia).
  pose proof (eff_stride_range T (i_strides dst) 0 w ndp ds Hds ltac:(lia) ltac:(unfold usz_range; lia)) as R0.
  pose proof (eff_stride_range T (i_strides src) 0 (sampler_depth smp * w) nsp ss Hss ltac:(lia) ltac:(unfold usz_range; lia)) as Rs.
  assert (KP : forall x y, kpx ms smp (Slice (Src 0) 0 (sl 0%nat))
       (eff_stride (i_strides src) 0 (sampler_depth smp * w)) x y = source_rgb (A w) src w h ms x y)
    by (intros; rewrite depth_kfmt; apply kpx_source; auto).
  destruct Nd as [Nd|Nd].
  - (* one plane *)
    specialize (Hov1 Nd).
    set (dsv := eff_stride (i_strides dst) 0 w) in *.
    set (ssv := eff_stride (i_strides src) 0 (sampler_depth smp * w)) in *.
    exists (k w h ssv (Slice (Src 0) 0 (sl 0%nat)) (dsv, dsv)
              (Slice (Dst 0) 0 (dsv * h), Slice (Dst 0) (0 + dsv * h) (dln 0%nat - dsv * h))).
    split.
    + intros m. rewrite Nd. change (1 - 1) with 0.
      pose proof (rgb_nv12_w_eq T m (sampler_depth smp) k w h (nsp - 1) ss sb 0 ds db s0
        (Slice (Src 0) 0 (sl 0%nat)) d0 d0 (Slice (Dst 0) 0 (dln 0%nat)) (Slice (Dst 0) 0 (dln 0%nat))) as E.
      cbv zeta in E. unfold nv12_slices in E. cbn [s_plane s_off s_len Z.eqb] in E.
      rewrite Es0, Ed0 in E. fold dsv ssv in E.
      rewrite E; unfold usz_range in *; auto; try lia; clear E.
      unfold image_accepted. rewrite Pd, Ps. fold ndp. rewrite Nd. cbn [Z.eqb].
      replace (match kfmt smp with Nv12 => _ | _ => _ end) with
        (forallb (fun g => accepts (sl (g_buf g)) (g_stride g) (g_rows g) (g_row g)) (image_planes src w h))
        by (destruct smp; reflexivity).
      replace (image_planes src w h) with [Geom 0 0 ssv h (sampler_depth smp * w)]
        by (unfold image_planes, ssv; rewrite Ps, depth_kfmt; destruct smp; reflexivity).
      cbn [forallb g_buf g_stride g_rows g_row]. fold dsv. change (Pos.eqb 1 1) with true. cbv iota.
      rewrite andb_true_l.
      replace (dsv * h <=? dln 0%nat) with (negb (dln 0%nat <? dsv * h)) by lia.
      destruct (dln 0%nat <? dsv * h), (accepts (sl 0%nat) ssv h (sampler_depth smp * w)),
        (accepts (dsv * h) dsv h w), (accepts (dln 0%nat - dsv * h) dsv (h / 2) w); reflexivity.
    + intros Is Id As Ad _.
      unfold image_in, image_planes in Is, Id. rewrite Ps in Is. rewrite Pd in Id.
      fold ndp in Id. rewrite Nd in Id. cbn [planes Z.eqb Pos.eqb] in Id.
      fold dsv in Id. inversion_clear Id as [|? ? Id1 Id']. inversion_clear Id' as [|? ? Id2 _].
      assert (Is1 : plane_in (slack w) ms (Geom 0 0 ssv h (sampler_depth smp * w))).
      { revert Is. unfold ssv. rewrite depth_kfmt. destruct smp; cbn [planes kfmt]; intros Is;
          inversion_clear Is; auto. }
      unfold plane_in in *. cbn [g_base g_rows g_stride g_row g_buf] in *.
      unfold image_accepted in Ad. rewrite Pd in Ad. fold ndp in Ad. rewrite Nd in Ad. cbn [Z.eqb Pos.eqb] in Ad.
      fold dsv in Ad. unfold accepts in Ad. unfold usz_range in *.
      assert (w <= dsv) by (apply (stride_ge dsv w h); lia).
      assert (0 <= dsv * h) by (apply Z.mul_nonneg_nonneg; lia).
      assert (h / 2 >= 1) by lia.
      assert (0 <= (h / 2 - 1) * dsv) by (apply Z.mul_nonneg_nonneg; lia).
      eapply runs_iff.
      * eapply (K ms dl HB w h (w / 2) (h / 2)); try lia.
        { apply src_ok_i; lia. }
        { apply dst_ok_lo; lia. }
        { apply dst_ok_hi; lia. }
        { apply fits_src; lia. }
        { unfold fits, cap. cbn [s_len s_plane s_off]. rewrite plane_len_dst. lia. }
        { unfold fits. rewrite cap_dst by lia. lia. }
      * intros wr. unfold image_areas, image_planes. rewrite Pd. fold ndp. rewrite Nd.
        cbn [planes Z.eqb Pos.eqb areas_from]. fold dsv.
        cbn [in_areas g_buf g_base g_stride g_rows g_row].
        unfold wunion, wempty. apply or_iff; [|apply or_iff; [|tauto]].
        { unfold luma_area. cbn [s_off]. apply area_ext'; auto.
          intros y j Hy Hj. unfold expected. rewrite Pd, Cd, KP. reflexivity. }
        { unfold uv_area. cbn [s_off]. apply area_ext'; auto; try lia.
          intros y j Hy Hj. unfold expected. rewrite Pd, Cd.
          rewrite !(block_sum_ext _ _ _ _ KP). reflexivity. }
  - (* two planes *)
    clear Hov1.
    destruct (Hds 1%nat ltac:(lia)) as (d1 & Hd1 & Ud1 & Ed1).
    destruct (Hdb 1%nat ltac:(lia)) as [He1 [Le1 Me1]].
    change (Z.of_nat 1) with 1 in *.
    assert (B2 : 0 <= buf_len ds0 1) by (unfold buf_len; lia).
    pose proof (eff_stride_range T (i_strides dst) 1 w ndp ds Hds ltac:(lia) ltac:(unfold usz_range; lia)) as R1.
    set (dsv := eff_stride (i_strides dst) 0 w) in *.
    set (dsw := eff_stride (i_strides dst) 1 w) in *.
    set (ssv := eff_stride (i_strides src) 0 (sampler_depth smp * w)) in *.
    exists (k w h ssv (Slice (Src 0) 0 (sl 0%nat)) (dsv, dsw)
              (Slice (Dst 0) 0 (dln 0%nat), Slice (Dst 1) 0 (dln 1%nat))).
    split.
    + intros m. rewrite Nd. change (2 - 1) with 1.
      pose proof (rgb_nv12_w_eq T m (sampler_depth smp) k w h (nsp - 1) ss sb 1 ds db s0
        (Slice (Src 0) 0 (sl 0%nat)) d0 d1 (Slice (Dst 0) 0 (dln 0%nat)) (Slice (Dst 1) 0 (dln 1%nat))) as E.
      cbv zeta in E. unfold nv12_slices in E. cbn [s_plane s_off s_len Z.eqb] in E.
      rewrite Es0, Ed0, Ed1 in E. fold dsv dsw ssv in E.
      rewrite E; unfold usz_range in *; auto; try lia; clear E.
      unfold image_accepted. rewrite Pd, Ps. fold ndp. rewrite Nd. cbn [Z.eqb Pos.eqb].
      replace (match kfmt smp with Nv12 => _ | _ => _ end) with
        (forallb (fun g => accepts (sl (g_buf g)) (g_stride g) (g_rows g) (g_row g)) (image_planes src w h))
        by (destruct smp; reflexivity).
      replace (image_planes src w h) with [Geom 0 0 ssv h (sampler_depth smp * w)]
        by (unfold image_planes, ssv; rewrite Ps, depth_kfmt; destruct smp; reflexivity).
      replace (image_planes dst w h) with [Geom 0 0 dsv h w; Geom 1 0 dsw (h / 2) w]
        by (unfold image_planes; rewrite Pd; fold ndp; rewrite Nd; reflexivity).
      cbn [forallb g_buf g_stride g_rows g_row].
      destruct (accepts (sl 0%nat) ssv h (sampler_depth smp * w)),
        (accepts (dln 0%nat) dsv h w), (accepts (dln 1%nat) dsw (h / 2) w); reflexivity.
    + intros Is Id As Ad _.
      unfold image_in, image_planes in Is, Id. rewrite Ps in Is. rewrite Pd in Id.
      fold ndp in Id. rewrite Nd in Id. cbn [planes Z.eqb Pos.eqb] in Id.
      fold dsv dsw in Id. inversion_clear Id as [|? ? Id1 Id']. inversion_clear Id' as [|? ? Id2 _].
      assert (Is1 : plane_in (slack w) ms (Geom 0 0 ssv h (sampler_depth smp * w))).
      { revert Is. unfold ssv. rewrite depth_kfmt. destruct smp; cbn [planes kfmt]; intros Is;
          inversion_clear Is; auto. }
      unfold plane_in in *. cbn [g_base g_rows g_stride g_row g_buf] in *.
      unfold usz_range in *.
      eapply runs_iff.
      * eapply (K ms dl HB w h (w / 2) (h / 2)); try lia.
        { apply src_ok_i; lia. }
        { apply dst_ok_i; lia. }
        { apply dst_ok_i; lia. }
        { apply fits_src; lia. }
        { apply fits_dst; lia. }
        { apply fits_dst; lia. }
      * intros wr. unfold image_areas, image_planes. rewrite Pd. fold ndp. rewrite Nd.
        cbn [planes Z.eqb Pos.eqb areas_from]. fold dsv dsw.
        cbn [in_areas g_buf g_base g_stride g_rows g_row].
        unfold wunion, wempty. apply or_iff; [|apply or_iff; [|tauto]].
        { unfold luma_area. cbn [s_off]. apply area_ext'; auto.
          intros y j Hy Hj. unfold expected. rewrite Pd, Cd, KP. reflexivity. }
        { unfold uv_area. cbn [s_off]. apply area_ext'; auto; try lia.
          intros y j Hy Hj. unfold expected. rewrite Pd, Cd.
          rewrite !(block_sum_ext _ _ _ _ KP). reflexivity. }
Qed.

(** ** RGB to I420 *)
Lemma rgb_i420_conv A slack smp c k :
  k420_ok T A slack smp c k ->
  i_pf src = kfmt smp -> nsp = 1 -> i_pf dst = I420 -> ndp = 3 -> i_cs dst = cs_of c ->
  w mod 2 = 0 -> h mod 2 = 0 ->
  sampler_depth smp * w < usz T ->
  conv_ok false (A w) (slack w) (rgb_i4xx_w 2 (sampler_depth smp) k).
Proof.
  intros K Ps Ns Pd Nd Cd We He Hov. unfold conv_ok.
  pose proof (isize_usz T HT) as [I1 I2].
  destruct (Hss 0%nat ltac:(lia)) as (s0 & Hs0 & Us0 & Es0).
  destruct (Hsb 0%nat ltac:(lia)) as [Hb0 [Lb0 Mb0]].
  destruct (Hds 0%nat ltac:(lia)) as (d0 & Hd0 & Ud0 & Ed0).
  destruct (Hdb 0%nat ltac:(lia)) as [He0 [Le0 Me0]].
  destruct (Hds 1%nat ltac:(lia)) as (d1 & Hd1 & Ud1 & Ed1).
  destruct (Hdb 1%nat ltac:(lia)) as [He1 [Le1 Me1]].
  destruct (Hds 2%nat ltac:(lia)) as (d2 & Hd2 & Ud2 & Ed2).
  destruct (Hdb 2%nat ltac:(lia)) as [He2 [Le2 Me2]].
  change (Z.of_nat 0) with 0 in *. change (Z.of_nat 1) with 1 in *. change (Z.of_nat 2) with 2 in *.
  assert (Dsmp : 3 <= sampler_depth smp <= 4) by (destruct smp; cbn; lia).
  assert (Hdr : 0 <= sampler_depth smp * w) by nia.
  assert (B0 : 0 <= buf_len ms 0) by (unfold buf_len; lia).
  assert (B1 : 0 <= buf_len ds0 0) by (unfold buf_len; lia).
  assert (B2 : 0 <= buf_len ds0 1) by (unfold buf_len; lia).
  assert (B3 : 0 <= buf_len ds0 2) by (unfold buf_len; lia).
  pose proof (eff_stride_range T (i_strides dst) 0 w ndp ds Hds ltac:(lia) ltac:(unfold usz_range; lia)) as R0.
  pose proof (eff_stride_range T (i_strides dst) 1 (w / 2) ndp ds Hds ltac:(lia) ltac:(unfold usz_range; lia)) as R1.
  pose proof (eff_stride_range T (i_strides dst) 2 (w / 2) ndp ds Hds ltac:(lia) ltac:(unfold usz_range; lia)) as R2.
  pose proof (eff_stride_range T (i_strides src) 0 (sampler_depth smp * w) nsp ss Hss ltac:(lia) ltac:(unfold usz_range; lia)) as Rs.
  assert (KP : forall x y, kpx ms smp (Slice (Src 0) 0 (sl 0%nat))
       (eff_stride (i_strides src) 0 (sampler_depth smp * w)) x y = source_rgb (A w) src w h ms x y)
    by (intros; rewrite depth_kfmt; apply kpx_source; auto).
  set (dsu := eff_stride (i_strides dst) 0 w) in *.
  set (dsv := eff_stride (i_strides dst) 1 (w / 2)) in *.
  set (dsw := eff_stride (i_strides dst) 2 (w / 2)) in *.
  set (ssv := eff_stride (i_strides src) 0 (sampler_depth smp * w)) in *.
  exists (k w h ssv (Slice (Src 0) 0 (sl 0%nat)) (dsu, dsv, dsw)
            (Slice (Dst 0) 0 (dln 0%nat), Slice (Dst 1) 0 (dln 1%nat), Slice (Dst 2) 0 (dln 2%nat))).
  split.
  - intros m.
    pose proof (rgb_i4xx_w_eq T m 2 (sampler_depth smp) k w h (nsp - 1) ss sb (ndp - 1) ds db s0
      (Slice (Src 0) 0 (sl 0%nat)) d0 d1 d2 (Slice (Dst 0) 0 (dln 0%nat)) (Slice (Dst 1) 0 (dln 1%nat))
      (Slice (Dst 2) 0 (dln 2%nat))) as E.
    cbv zeta in E. cbn [s_plane s_off s_len Z.eqb] in E.
    rewrite Es0, Ed0, Ed1, Ed2 in E. fold dsu dsv dsw ssv in E.
    rewrite E; unfold usz_range in *; auto; try lia; clear E.
    unfold image_accepted. rewrite Pd, Ps.
    replace (match kfmt smp with Nv12 => _ | _ => _ end) with
      (forallb (fun g => accepts (sl (g_buf g)) (g_stride g) (g_rows g) (g_row g)) (image_planes src w h))
      by (destruct smp; reflexivity).
    replace (image_planes src w h) with [Geom 0 0 ssv h (sampler_depth smp * w)]
      by (unfold image_planes, ssv; rewrite Ps, depth_kfmt; destruct smp; reflexivity).
    replace (image_planes dst w h) with [Geom 0 0 dsu h w; Geom 1 0 dsv (h / 2) (w / 2); Geom 2 0 dsw (h / 2) (w / 2)]
      by (unfold image_planes; rewrite Pd; reflexivity).
    cbn [forallb g_buf g_stride g_rows g_row].
    destruct (accepts (sl 0%nat) ssv h (sampler_depth smp * w)),
      (accepts (dln 0%nat) dsu h w), (accepts (dln 1%nat) dsv (h / 2) (w / 2)),
      (accepts (dln 2%nat) dsw (h / 2) (w / 2)); reflexivity.
  - intros Is Id As Ad _.
    unfold image_in, image_planes in Is, Id. rewrite Ps in Is. rewrite Pd in Id.
    cbn [planes] in Id.
    fold dsu dsv dsw in Id. inversion_clear Id as [|? ? Id1 Id']. inversion_clear Id' as [|? ? Id2 Id''].
    inversion_clear Id'' as [|? ? Id3 _].
    assert (Is1 : plane_in (slack w) ms (Geom 0 0 ssv h (sampler_depth smp * w))).
    { revert Is. unfold ssv. rewrite depth_kfmt. destruct smp; cbn [planes kfmt]; intros Is;
        inversion_clear Is; auto. }
    unfold plane_in in *. cbn [g_base g_rows g_stride g_row g_buf] in *.
    unfold usz_range in *.
    eapply runs_iff.
    + eapply (K ms dl HB w h (w / 2) (h / 2)); try lia.
      { apply src_ok_i; lia. }
      { apply dst_ok_i; lia. }
      { apply dst_ok_i; lia. }
      { apply dst_ok_i; lia. }
      { apply fits_src; lia. }
      { apply fits_dst; lia. }
      { apply fits_dst; lia. }
      { apply fits_dst; lia. }
    + intros wr. unfold image_areas, image_planes. rewrite Pd.
      cbn [planes areas_from]. fold dsu dsv dsw.
      cbn [in_areas g_buf g_base g_stride g_rows g_row].
      unfold wunion, wempty. apply or_iff; [|apply or_iff; [|apply or_iff; [|tauto]]].
      { unfold luma_area. cbn [s_off]. apply area_ext'; auto.
        intros y j Hy Hj. unfold expected. rewrite Pd, Cd, KP. reflexivity. }
      { unfold u_area. cbn [s_off]. apply area_ext'; auto; try lia.
        intros y j Hy Hj. unfold expected. rewrite Pd, Cd.
        rewrite !(block_sum_ext _ _ _ _ KP). reflexivity. }
      { unfold v_area. cbn [s_off]. apply area_ext'; auto; try lia.
        intros y j Hy Hj. unfold expected. rewrite Pd, Cd.
        rewrite !(block_sum_ext _ _ _ _ KP). reflexivity. }
Qed.

(** ** RGB to I444 *)
Lemma rgb_i444_conv A slack smp c k :
  k444_ok T A slack smp c k ->
  i_pf src = kfmt smp -> nsp = 1 -> i_pf dst = I444 -> ndp = 3 -> i_cs dst = cs_of c ->
  sampler_depth smp * w < usz T ->
  conv_ok false (A w) (slack w) (rgb_i4xx_w 1 (sampler_depth smp) k).
Proof.
  intros K Ps Ns Pd Nd Cd Hov. unfold conv_ok.
  pose proof (isize_usz T HT) as [I1 I2].
  destruct (Hss 0%nat ltac:(lia)) as (s0 & Hs0 & Us0 & Es0).
  destruct (Hsb 0%nat ltac:(lia)) as [Hb0 [Lb0 Mb0]].
  destruct (Hds 0%nat ltac:(lia)) as (d0 & Hd0 & Ud0 & Ed0).
  destruct (Hdb 0%nat ltac:(lia)) as [He0 [Le0 Me0]].
  destruct (Hds 1%nat ltac:(lia)) as (d1 & Hd1 & Ud1 & Ed1).
  destruct (Hdb 1%nat ltac:(lia)) as [He1 [Le1 Me1]].
  destruct (Hds 2%nat ltac:(lia)) as (d2 & Hd2 & Ud2 & Ed2).
  destruct (Hdb 2%nat ltac:(lia)) as [He2 [Le2 Me2]].
  change (Z.of_nat 0) with 0 in *. change (Z.of_nat 1) with 1 in *. change (Z.of_nat 2) with 2 in *.
  assert (Dsmp : 3 <= sampler_depth smp <= 4) by (destruct smp; cbn; lia).
  assert (Hdr : 0 <= sampler_depth smp * w) by nia.
  assert (B0 : 0 <= buf_len ms 0) by (unfold buf_len; lia).
  assert (B1 : 0 <= buf_len ds0 0) by (unfold buf_len; lia).
  assert (B2 : 0 <= buf_len ds0 1) by (unfold buf_len; lia).
  assert (B3 : 0 <= buf_len ds0 2) by (unfold buf_len; lia).
  pose proof (eff_stride_range T (i_strides dst) 0 w ndp ds Hds ltac:(lia) ltac:(unfold usz_range; lia)) as R0.
  pose proof (eff_stride_range T (i_strides dst) 1 w ndp ds Hds ltac:(lia) ltac:(unfold usz_range; lia)) as R1.
  pose proof (eff_stride_range T (i_strides dst) 2 w ndp ds Hds ltac:(lia) ltac:(unfold usz_range; lia)) as R2.
  pose proof (eff_stride_range T (i_strides src) 0 (sampler_depth smp * w) nsp ss Hss ltac:(lia) ltac:(unfold usz_range; lia)) as Rs.
  assert (KP : forall x y, kpx ms smp (Slice (Src 0) 0 (sl 0%nat))
       (eff_stride (i_strides src) 0 (sampler_depth smp * w)) x y = source_rgb (A w) src w h ms x y)
    by (intros; rewrite depth_kfmt; apply kpx_source; auto).
  set (dsu := eff_stride (i_strides dst) 0 w) in *.
  set (dsv := eff_stride (i_strides dst) 1 w) in *.
  set (dsw := eff_stride (i_strides dst) 2 w) in *.
  set (ssv := eff_stride (i_strides src) 0 (sampler_depth smp * w)) in *.
  exists (k w h ssv (Slice (Src 0) 0 (sl 0%nat)) (dsu, dsv, dsw)
            (Slice (Dst 0) 0 (dln 0%nat), Slice (Dst 1) 0 (dln 1%nat), Slice (Dst 2) 0 (dln 2%nat))).
  split.
  - intros m.
    pose proof (rgb_i4xx_w_eq T m 1 (sampler_depth smp) k w h (nsp - 1) ss sb (ndp - 1) ds db s0
      (Slice (Src 0) 0 (sl 0%nat)) d0 d1 d2 (Slice (Dst 0) 0 (dln 0%nat)) (Slice (Dst 1) 0 (dln 1%nat))
      (Slice (Dst 2) 0 (dln 2%nat))) as E.
    rewrite !Z.div_1_r in E.
    cbv zeta in E. cbn [s_plane s_off s_len Z.eqb] in E.
    rewrite Es0, Ed0, Ed1, Ed2 in E. fold dsu dsv dsw ssv in E.
    rewrite E; unfold usz_range in *; auto; try lia; clear E.
    unfold image_accepted. rewrite Pd, Ps.
    replace (match kfmt smp with Nv12 => _ | _ => _ end) with
      (forallb (fun g => accepts (sl (g_buf g)) (g_stride g) (g_rows g) (g_row g)) (image_planes src w h))
      by (destruct smp; reflexivity).
    replace (image_planes src w h) with [Geom 0 0 ssv h (sampler_depth smp * w)]
      by (unfold image_planes, ssv; rewrite Ps, depth_kfmt; destruct smp; reflexivity).
    replace (image_planes dst w h) with [Geom 0 0 dsu h w; Geom 1 0 dsv h w; Geom 2 0 dsw h w]
      by (unfold image_planes; rewrite Pd; reflexivity).
    cbn [forallb g_buf g_stride g_rows g_row].
    destruct (accepts (sl 0%nat) ssv h (sampler_depth smp * w)),
      (accepts (dln 0%nat) dsu h w), (accepts (dln 1%nat) dsv h w),
      (accepts (dln 2%nat) dsw h w); reflexivity.
  - intros Is Id As Ad _.
    unfold image_in, image_planes in Is, Id. rewrite Ps in Is. rewrite Pd in Id.
    cbn [planes] in Id.
    fold dsu dsv dsw in Id. inversion_clear Id as [|? ? Id1 Id']. inversion_clear Id' as [|? ? Id2 Id''].
    inversion_clear Id'' as [|? ? Id3 _].
    assert (Is1 : plane_in (slack w) ms (Geom 0 0 ssv h (sampler_depth smp * w))).
    { revert Is. unfold ssv. rewrite depth_kfmt. destruct smp; cbn [planes kfmt]; intros Is;
        inversion_clear Is; auto. }
    unfold plane_in in *. cbn [g_base g_rows g_stride g_row g_buf] in *.
    unfold usz_range in *.
    eapply runs_iff.
    + eapply (K ms dl HB w h); try lia.
      { apply src_ok_i; lia. }
      { apply dst_ok_i; lia. }
      { apply dst_ok_i; lia. }
      { apply dst_ok_i; lia. }
      { apply fits_src; lia. }
      { apply fits_dst; lia. }
      { apply fits_dst; lia. }
      { apply fits_dst; lia. }
    + intros wr. unfold image_areas, image_planes. rewrite Pd.
      cbn [planes areas_from]. fold dsu dsv dsw.
      cbn [in_areas g_buf g_base g_stride g_rows g_row].
      unfold wunion, wempty. apply or_iff; [|apply or_iff; [|apply or_iff; [|tauto]]].
      { unfold luma_area. cbn [s_off]. apply area_ext'; auto.
        intros y j Hy Hj. unfold expected. rewrite Pd, Cd, KP. reflexivity. }
      { unfold u444_area. cbn [s_off]. apply area_ext'; auto; try lia.
        intros y j Hy Hj. unfold expected. rewrite Pd, Cd, KP. reflexivity. }
      { unfold v444_area. cbn [s_off]. apply area_ext'; auto; try lia.
        intros y j Hy Hj. unfold expected. rewrite Pd, Cd, KP. reflexivity. }
Qed.

(** ** To packed formats: common facts about the destination *)
Lemma planes_rgb im pf : is_rgb pf = true -> i_pf im = pf ->
  image_planes im w h =
  [Geom 0 0 (eff_stride (i_strides im) 0 (bytes_per_pixel pf * w)) h (bytes_per_pixel pf * w)].
Proof. intros R E. unfold image_planes. rewrite E. destruct pf; try discriminate; reflexivity. Qed.

Lemma accepted_rgb both lens im pf : is_rgb pf = true -> i_pf im = pf ->
  image_accepted both lens im w h =
  accepts (lens 0%nat) (eff_stride (i_strides im) 0 (bytes_per_pixel pf * w)) h
          (if both then w else bytes_per_pixel pf * w).
Proof.
  intros R E. unfold image_accepted. rewrite (planes_rgb im pf R E), E. cbn [forallb g_buf g_stride g_rows g_row].
  destruct pf; try discriminate; rewrite andb_true_r; reflexivity.
Qed.

Lemma expected_rgb A pf y j : is_rgb pf = true -> i_pf dst = pf ->
  expected A src dst w h ms 0 y j =
  pixel_byte pf (source_rgb A src w h ms (j / bytes_per_pixel pf) y) (j mod bytes_per_pixel pf).
Proof. intros R E. unfold expected. rewrite E. destruct pf; try discriminate; reflexivity. Qed.

Lemma bpp_rgb pf : is_rgb pf = true -> 3 <= bytes_per_pixel pf <= 4.
Proof. destruct pf; try discriminate; cbn; lia. Qed.

Lemma out_areas_ok A pf col n s wr : is_rgb pf = true -> i_pf dst = pf ->
  n = 0%nat -> s_off s = 0 ->
  (forall x y, col x y = source_rgb A src w h ms x y) ->
  in_areas [out_area pf col n s (eff_stride (i_strides dst) 0 (bytes_per_pixel pf * w)) h w] wr <->
  in_areas (image_areas A src dst w h ms) wr.
Proof.
  intros R E -> Ho HC. unfold image_areas. rewrite (planes_rgb dst pf R E).
  cbn [areas_from in_areas g_buf g_base g_stride g_rows g_row]. unfold wunion, wempty.
  apply or_iff; [|tauto]. unfold out_area. rewrite Ho. apply area_ext'; auto.
  intros y j Hy Hj. rewrite (expected_rgb A pf y j R E), HC. reflexivity.
Qed.

(** ** NV12 to RGB *)
Lemma nv12_rgb_conv A pf c k :
  k21_ok T A pf c k -> is_rgb pf = true ->
  i_pf src = Nv12 -> (nsp = 1 \/ nsp = 2) -> i_cs src = cs_of c -> i_pf dst = pf -> ndp = 1 ->
  w mod 2 = 0 -> h mod 2 = 0 ->
  bytes_per_pixel pf * w < usz T ->
  (nsp = 1 -> eff_stride (i_strides src) 0 w * h < usz T) ->
  conv_ok false (A w) 0 (nv12_rgb_w (bytes_per_pixel pf) k).
Proof.
  intros K Rp Ps Ns Cs Pd Nd We He Hov Hov1. unfold conv_ok.
  pose proof (isize_usz T HT) as [I1 I2].
  destruct (Hss 0%nat ltac:(lia)) as (s0 & Hs0 & Us0 & Es0).
  destruct (Hsb 0%nat ltac:(lia)) as [Hb0 [Lb0 Mb0]].
  destruct (Hds 0%nat ltac:(lia)) as (d0 & Hd0 & Ud0 & Ed0).
  destruct (Hdb 0%nat ltac:(lia)) as [He0 [Le0 Me0]].
  change (Z.of_nat 0) with 0 in *.
  pose proof (bpp_rgb pf Rp) as Dp.
  assert (Hdr : 0 <= bytes_per_pixel pf * w) by nia.
  assert (B0 : 0 <= buf_len ms 0) by (unfold buf_len; lia).
  assert (B1 : 0 <= buf_len ds0 0) by (unfold buf_len; lia).
  pose proof (eff_stride_range T (i_strides src) 0 w nsp ss Hss ltac:(lia) ltac:(unfold usz_range; lia)) as R0.
  pose proof (eff_stride_range T (i_strides dst) 0 (bytes_per_pixel pf * w) ndp ds Hds ltac:(lia) ltac:(unfold usz_range; lia)) as Rd.
  destruct Ns as [Ns|Ns].
  - specialize (Hov1 Ns).
    set (ssv := eff_stride (i_strides src) 0 w) in *.
    set (dsv := eff_stride (i_strides dst) 0 (bytes_per_pixel pf * w)) in *.
    exists (k w h (ssv, ssv) (Slice (Src 0) 0 (ssv * h), Slice (Src 0) (0 + ssv * h) (sl 0%nat - ssv * h))
              dsv (Slice (Dst 0) 0 (dln 0%nat))).
    split.
    + intros m. rewrite Ns. change (1 - 1) with 0.
      pose proof (nv12_rgb_w_eq T m (bytes_per_pixel pf) k w h 0 ss sb (ndp - 1) ds db s0 s0
        (Slice (Src 0) 0 (sl 0%nat)) (Slice (Src 0) 0 (sl 0%nat)) d0 (Slice (Dst 0) 0 (dln 0%nat))) as E.
      cbv zeta in E. unfold nv12_slices in E. cbn [s_plane s_off s_len Z.eqb] in E.
      rewrite Es0, Ed0 in E. fold dsv ssv in E.
      rewrite E; unfold usz_range in *; auto; try lia; clear E.
      rewrite (accepted_rgb false dln dst pf Rp Pd). fold dsv.
      unfold image_accepted. rewrite Ps. fold nsp. rewrite Ns. cbn [Z.eqb Pos.eqb]. fold ssv.
      rewrite andb_true_l.
      replace (ssv * h <=? sl 0%nat) with (negb (sl 0%nat <? ssv * h)) by lia.
      destruct (sl 0%nat <? ssv * h), (accepts (dln 0%nat) dsv h (bytes_per_pixel pf * w)),
        (accepts (ssv * h) ssv h w), (accepts (sl 0%nat - ssv * h) ssv (h / 2) w); reflexivity.
    + intros Is Id As Ad _.
      unfold image_in in Id. rewrite (planes_rgb dst pf Rp Pd) in Id. fold dsv in Id.
      unfold image_in, image_planes in Is. rewrite Ps in Is.
      fold nsp in Is. rewrite Ns in Is. cbn [planes Z.eqb Pos.eqb] in Is.
      fold ssv in Is. inversion_clear Is as [|? ? Is1 Is']. inversion_clear Is' as [|? ? Is2 _].
      inversion_clear Id as [|? ? Id1 _].
      unfold plane_in in *. cbn [g_base g_rows g_stride g_row g_buf] in *.
      unfold image_accepted in As. rewrite Ps in As. fold nsp in As. rewrite Ns in As. cbn [Z.eqb Pos.eqb] in As.
      fold ssv in As. unfold accepts in As. unfold usz_range in *.
      assert (w <= ssv) by (apply (stride_ge ssv w h); lia).
      assert (0 <= ssv * h) by (apply Z.mul_nonneg_nonneg; lia).
      assert (h / 2 >= 1) by lia.
      assert (0 <= (h / 2 - 1) * ssv) by (apply Z.mul_nonneg_nonneg; lia).
      eapply runs_iff.
      * eapply (K ms dl HB w h (w / 2) (h / 2)); try lia.
        { apply src_ok_lo; lia. }
        { apply src_ok_hi; lia. }
        { apply dst_ok_i; lia. }
        { unfold fits, cap. cbn [s_len s_plane s_off]. rewrite plane_len_src. lia. }
        { unfold fits. rewrite cap_src by lia. lia. }
        { apply fits_dst; lia. }
      * intros wr. apply out_areas_ok; auto.
        intros x y. unfold source_rgb, image_planes. rewrite Ps. fold nsp. rewrite Ns.
        cbn [is_rgb planes Z.eqb Pos.eqb ycc_pixel nth_plane nth]. fold ssv.
        unfold nv12_col, byte, sample, nth_plane. cbn [s_plane s_off nth g_base g_stride g_buf].
        rewrite Cs. f_equal; apply nth_idx; lia.
  - clear Hov1.
    destruct (Hss 1%nat ltac:(lia)) as (s1 & Hs1 & Us1 & Es1).
    destruct (Hsb 1%nat ltac:(lia)) as [Hb1 [Lb1 Mb1]].
    change (Z.of_nat 1) with 1 in *.
    assert (B2 : 0 <= buf_len ms 1) by (unfold buf_len; lia).
    pose proof (eff_stride_range T (i_strides src) 1 w nsp ss Hss ltac:(lia) ltac:(unfold usz_range; lia)) as R1.
    set (ssv := eff_stride (i_strides src) 0 w) in *.
    set (ssw := eff_stride (i_strides src) 1 w) in *.
    set (dsv := eff_stride (i_strides dst) 0 (bytes_per_pixel pf * w)) in *.
    exists (k w h (ssv, ssw) (Slice (Src 0) 0 (sl 0%nat), Slice (Src 1) 0 (sl 1%nat))
              dsv (Slice (Dst 0) 0 (dln 0%nat))).
    split.
    + intros m. rewrite Ns. change (2 - 1) with 1.
      pose proof (nv12_rgb_w_eq T m (bytes_per_pixel pf) k w h 1 ss sb (ndp - 1) ds db s0 s1
        (Slice (Src 0) 0 (sl 0%nat)) (Slice (Src 1) 0 (sl 1%nat)) d0 (Slice (Dst 0) 0 (dln 0%nat))) as E.
      cbv zeta in E. unfold nv12_slices in E. cbn [s_plane s_off s_len Z.eqb] in E.
      rewrite Es0, Ed0, Es1 in E. fold dsv ssv ssw in E.
      rewrite E; unfold usz_range in *; auto; try lia; clear E.
      rewrite (accepted_rgb false dln dst pf Rp Pd). fold dsv.
      unfold image_accepted. rewrite Ps. fold nsp. rewrite Ns. cbn [Z.eqb Pos.eqb].
      replace (image_planes src w h) with [Geom 0 0 ssv h w; Geom 1 0 ssw (h / 2) w]
        by (unfold image_planes; rewrite Ps; fold nsp; rewrite Ns; reflexivity).
      cbn [forallb g_buf g_stride g_rows g_row].
      destruct (accepts (dln 0%nat) dsv h (bytes_per_pixel pf * w)),
        (accepts (sl 0%nat) ssv h w), (accepts (sl 1%nat) ssw (h / 2) w); reflexivity.
    + intros Is Id As Ad _.
      unfold image_in in Id. rewrite (planes_rgb dst pf Rp Pd) in Id. fold dsv in Id.
      unfold image_in, image_planes in Is. rewrite Ps in Is.
      fold nsp in Is. rewrite Ns in Is. cbn [planes Z.eqb Pos.eqb] in Is.
      fold ssv ssw in Is. inversion_clear Is as [|? ? Is1 Is']. inversion_clear Is' as [|? ? Is2 _].
      inversion_clear Id as [|? ? Id1 _].
      unfold plane_in in *. cbn [g_base g_rows g_stride g_row g_buf] in *.
      unfold usz_range in *.
      eapply runs_iff.
      * eapply (K ms dl HB w h (w / 2) (h / 2)); try lia.
        { apply src_ok_i; lia. }
        { apply src_ok_i; lia. }
        { apply dst_ok_i; lia. }
        { apply fits_src; lia. }
        { apply fits_src; lia. }
        { apply fits_dst; lia. }
      * intros wr. apply out_areas_ok; auto.
        intros x y. unfold source_rgb, image_planes. rewrite Ps. fold nsp. rewrite Ns.
        cbn [is_rgb planes Z.eqb Pos.eqb ycc_pixel nth_plane nth]. fold ssv ssw.
        unfold nv12_col, byte, sample, nth_plane. cbn [s_plane s_off nth g_base g_stride g_buf].
        rewrite Cs. f_equal; apply nth_idx; lia.
Qed.

(** ** I420 and I444 to RGB *)
Lemma i4xx_rgb_conv A pf c k sub :
  (sub = 2 /\ k420r_ok T A pf c k /\ i_pf src = I420 /\ w mod 2 = 0 /\ h mod 2 = 0 \/
   sub = 1 /\ k444r_ok T A pf c k /\ i_pf src = I444) ->
  is_rgb pf = true ->
  nsp = 3 -> i_cs src = cs_of c -> i_pf dst = pf -> ndp = 1 ->
  bytes_per_pixel pf * w < usz T ->
  conv_ok false (A w) 0 (i4xx_rgb_w sub (bytes_per_pixel pf) k).
Proof.
  intros K Rp Ns Cs Pd Nd Hov. unfold conv_ok.
  pose proof (isize_usz T HT) as [I1 I2].
  destruct (Hss 0%nat ltac:(lia)) as (s0 & Hs0 & Us0 & Es0).
  destruct (Hsb 0%nat ltac:(lia)) as [Hb0 [Lb0 Mb0]].
  destruct (Hss 1%nat ltac:(lia)) as (s1 & Hs1 & Us1 & Es1).
  destruct (Hsb 1%nat ltac:(lia)) as [Hb1 [Lb1 Mb1]].
  destruct (Hss 2%nat ltac:(lia)) as (s2 & Hs2 & Us2 & Es2).
  destruct (Hsb 2%nat ltac:(lia)) as [Hb2 [Lb2 Mb2]].
  destruct (Hds 0%nat ltac:(lia)) as (d0 & Hd0 & Ud0 & Ed0).
  destruct (Hdb 0%nat ltac:(lia)) as [He0 [Le0 Me0]].
  change (Z.of_nat 0) with 0 in *. change (Z.of_nat 1) with 1 in *. change (Z.of_nat 2) with 2 in *.
  pose proof (bpp_rgb pf Rp) as Dp.
  assert (Hdr : 0 <= bytes_per_pixel pf * w) by nia.
  assert (B0 : 0 <= buf_len ms 0) by (unfold buf_len; lia).
  assert (B1 : 0 <= buf_len ms 1) by (unfold buf_len; lia).
  assert (B2 : 0 <= buf_len ms 2) by (unfold buf_len; lia).
  assert (B3 : 0 <= buf_len ds0 0) by (unfold buf_len; lia).
  assert (Hsub : 0 < sub /\ 0 < h / sub /\ 0 <= w / sub < usz T).
  { destruct K as [(-> & _ & _ & ? & ?)|(-> & _)]; lia. }
  pose proof (eff_stride_range T (i_strides src) 0 w nsp ss Hss ltac:(lia) ltac:(unfold usz_range; lia)) as R0.
  pose proof (eff_stride_range T (i_strides src) 1 (w / sub) nsp ss Hss ltac:(lia) ltac:(unfold usz_range; lia)) as R1.
  pose proof (eff_stride_range T (i_strides src) 2 (w / sub) nsp ss Hss ltac:(lia) ltac:(unfold usz_range; lia)) as R2.
  pose proof (eff_stride_range T (i_strides dst) 0 (bytes_per_pixel pf * w) ndp ds Hds ltac:(lia) ltac:(unfold usz_range; lia)) as Rd.
  assert (PL : image_planes src w h =
     [Geom 0 0 (eff_stride (i_strides src) 0 w) h w;
      Geom 1 0 (eff_stride (i_strides src) 1 (w / sub)) (h / sub) (w / sub);
      Geom 2 0 (eff_stride (i_strides src) 2 (w / sub)) (h / sub) (w / sub)]).
  { unfold image_planes. destruct K as [(-> & _ & -> & _)|(-> & _ & ->)]; [reflexivity|].
    rewrite !Z.div_1_r. reflexivity. }
  assert (AC : image_accepted false sl src w h =
     forallb (fun g => accepts (sl (g_buf g)) (g_stride g) (g_rows g) (g_row g)) (image_planes src w h)).
  { unfold image_accepted. destruct K as [(_ & _ & -> & _)|(_ & _ & ->)]; reflexivity. }
  set (ssu := eff_stride (i_strides src) 0 w) in *.
  set (ssv := eff_stride (i_strides src) 1 (w / sub)) in *.
  set (ssw := eff_stride (i_strides src) 2 (w / sub)) in *.
  set (dsv := eff_stride (i_strides dst) 0 (bytes_per_pixel pf * w)) in *.
  exists (k w h (ssu, ssv, ssw) (Slice (Src 0) 0 (sl 0%nat), Slice (Src 1) 0 (sl 1%nat), Slice (Src 2) 0 (sl 2%nat))
            dsv (Slice (Dst 0) 0 (dln 0%nat))).
  split.
  - intros m.
    pose proof (i4xx_rgb_w_eq T m sub (bytes_per_pixel pf) k w h (nsp - 1) ss sb (ndp - 1) ds db s0 s1 s2
      (Slice (Src 0) 0 (sl 0%nat)) (Slice (Src 1) 0 (sl 1%nat)) (Slice (Src 2) 0 (sl 2%nat)) d0 (Slice (Dst 0) 0 (dln 0%nat))) as E.
    cbv zeta in E. cbn [s_plane s_off s_len Z.eqb] in E.
    rewrite Es0, Ed0, Es1, Es2 in E. fold dsv ssu ssv ssw in E.
    rewrite E; unfold usz_range in *; auto; try lia; clear E.
    rewrite (accepted_rgb false dln dst pf Rp Pd), AC, PL. fold dsv.
    cbn [forallb g_buf g_stride g_rows g_row].
    destruct (accepts (dln 0%nat) dsv h (bytes_per_pixel pf * w)),
      (accepts (sl 0%nat) ssu h w), (accepts (sl 1%nat) ssv (h / sub) (w / sub)),
      (accepts (sl 2%nat) ssw (h / sub) (w / sub)); reflexivity.
  - intros Is Id As Ad _.
    unfold image_in in Id, Is. rewrite (planes_rgb dst pf Rp Pd) in Id. fold dsv in Id.
    rewrite PL in Is. inversion_clear Is as [|? ? Is1 Is']. inversion_clear Is' as [|? ? Is2 Is''].
    inversion_clear Is'' as [|? ? Is3 _].
    inversion_clear Id as [|? ? Id1 _].
    unfold plane_in in *. cbn [g_base g_rows g_stride g_row g_buf] in *.
    unfold usz_range in *.
    destruct K as [(-> & K & Ps & We & He)|(-> & K & Ps)].
    + eapply runs_iff.
      * eapply (K ms dl HB w h (w / 2) (h / 2)); try lia;
          first [apply src_ok_i; lia|apply dst_ok_i; lia|apply fits_src; lia|apply fits_dst; lia].
      * intros wr. apply out_areas_ok; auto.
        intros x y. unfold source_rgb. rewrite PL, Ps.
        cbn [is_rgb ycc_pixel nth_plane nth].
        unfold i420_col, byte, sample, nth_plane. cbn [s_plane s_off nth g_base g_stride g_buf].
        rewrite Cs. f_equal; apply nth_idx; lia.
    + rewrite !Z.div_1_r in *.
      eapply runs_iff.
      * eapply (K ms dl HB w h); try lia;
          first [apply src_ok_i; lia|apply dst_ok_i; lia|apply fits_src; lia|apply fits_dst; lia].
      * intros wr. apply out_areas_ok; auto.
        intros x y. unfold source_rgb. rewrite PL, Ps.
        cbn [is_rgb ycc_pixel nth_plane nth].
        unfold i444_col, byte, sample, nth_plane. cbn [s_plane s_off nth g_base g_stride g_buf].
        rewrite Cs. f_equal; apply nth_idx; lia.
Qed.

(** ** RGB to RGB *)
Lemma rgb_rgb_conv A slack spf dpf k :
  k11_ok T slack spf dpf k -> -1 <= slack w -> is_rgb spf = true -> is_rgb dpf = true ->
  i_pf src = spf -> nsp = 1 -> i_pf dst = dpf -> ndp = 1 ->
  bytes_per_pixel spf * w < usz T -> bytes_per_pixel dpf * w < usz T ->
  sl 0%nat <= isize_max T -> dln 0%nat <= isize_max T ->
  conv_ok true A (slack w) (rgb_rgb_w (bytes_per_pixel spf) (bytes_per_pixel dpf) k).
Proof.
  intros K Sl Rs Rp Ps Ns Pd Nd Hov Hov' Hl1 Hl2. unfold conv_ok.
  pose proof (isize_usz T HT) as [I1 I2].
  destruct (Hss 0%nat ltac:(lia)) as (s0 & Hs0 & Us0 & Es0).
  destruct (Hsb 0%nat ltac:(lia)) as [Hb0 [Lb0 Mb0]].
  destruct (Hds 0%nat ltac:(lia)) as (d0 & Hd0 & Ud0 & Ed0).
  destruct (Hdb 0%nat ltac:(lia)) as [He0 [Le0 Me0]].
  change (Z.of_nat 0) with 0 in *.
  pose proof (bpp_rgb spf Rs) as Dps. pose proof (bpp_rgb dpf Rp) as Dpd.
  assert (Hdr : 0 <= bytes_per_pixel spf * w) by nia.
  assert (Hdr' : 0 <= bytes_per_pixel dpf * w) by nia.
  assert (B0 : 0 <= buf_len ms 0) by (unfold buf_len; lia).
  assert (B1 : 0 <= buf_len ds0 0) by (unfold buf_len; lia).
  pose proof (eff_stride_range T (i_strides src) 0 (bytes_per_pixel spf * w) nsp ss Hss ltac:(lia) ltac:(unfold usz_range; lia)) as R0.
  pose proof (eff_stride_range T (i_strides dst) 0 (bytes_per_pixel dpf * w) ndp ds Hds ltac:(lia) ltac:(unfold usz_range; lia)) as R1.
  rewrite (accepted_rgb true dln dst dpf Rp Pd), (accepted_rgb true sl src spf Rs Ps).
  unfold image_in, rows_apart. rewrite (planes_rgb dst dpf Rp Pd), (planes_rgb src spf Rs Ps).
  assert (PC := pcol_source A spf (sl 0%nat)).
  set (ssv := eff_stride (i_strides src) 0 (bytes_per_pixel spf * w)) in *.
  set (dsv := eff_stride (i_strides dst) 0 (bytes_per_pixel dpf * w)) in *.
  exists (k w h ssv (Slice (Src 0) 0 (sl 0%nat)) dsv (Slice (Dst 0) 0 (dln 0%nat))).
  split.
  - intros m.
    pose proof (rgb_rgb_w_eq T m (bytes_per_pixel spf) (bytes_per_pixel dpf) k w h (nsp - 1) ss sb (ndp - 1) ds db s0
      (Slice (Src 0) 0 (sl 0%nat)) d0 (Slice (Dst 0) 0 (dln 0%nat))) as E.
    cbv zeta in E. cbn [s_plane s_off s_len Z.eqb] in E.
    rewrite Es0, Ed0 in E. fold dsv ssv in E.
    rewrite E; unfold usz_range in *; auto; lia.
  - intros Is Id As Ad Hap. destruct (Hap eq_refl) as [Hps Hpd].
    inversion_clear Is as [|? ? Is1 _]. inversion_clear Id as [|? ? Id1 _].
    inversion_clear Hps as [|? ? Hp1 _]. inversion_clear Hpd as [|? ? Hp2 _].
    unfold plane_in in *. cbn [g_base g_rows g_stride g_row g_buf] in *.
    unfold usz_range, accepts in *.
    assert (0 <= w * (h - 1)) by (apply Z.mul_nonneg_nonneg; lia).
    assert (ssv * h < usz T) by lia.
    assert (dsv * h < usz T) by lia.
    eapply runs_iff.
    + eapply (K ms dl HB w h); try lia;
        first [apply src_ok_i; lia|apply dst_ok_i; lia|apply fits_src; lia|apply fits_dst; lia].
    + intros wr. apply out_areas_ok; auto.
Qed.
End Conv.
