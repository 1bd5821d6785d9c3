(** The re-orderings of a whole call on a big-endian machine. *)
From Coq Require Import ZArith List Bool Lia ZifyBool ZifyNat.
Import ListNotations.
From Verif Require Import Base Exec Area Fmt Common Scalar Wrappers CpuInfo Lib Sets Spec SetSpec ApiSpec Api PixelFacts KernelBase
  WrapperFacts ConvProofs LibFacts ApiProofs FinalProofs ConvertProofs PadFacts CallFacts PropFacts EndianSpec BigOrderSpec BigReorder.
Open Scope Z_scope.

Lemma big_byte_ext spf dpf w pad last s s' j : (forall o, s o = s' o) ->
  big_byte spf dpf w pad last s j = big_byte spf dpf w pad last s' j.
Proof.
  intros E. unfold big_byte, big_bgra, big_rgb. destruct spf, dpf; rewrite !E; reflexivity.
Qed.

(** The kernels on images in their buffers. *)
Lemma big_kernel T ms ds0 w h spf dpf ss ds sl dln : bytes_ok ms -> big T = true ->
  supported spf dpf = true -> is_rgb spf = true -> is_rgb dpf = true ->
  0 < w -> 0 < h < usz T -> 2 * (bytes_per_pixel dpf * w) < usz T ->
  bytes_per_pixel spf * w <= ss -> bytes_per_pixel dpf * w <= ds -> ss * h < usz T -> ds * h < usz T ->
  let dl := map (@length Z) ds0 in let s := Slice (Src 0) 0 sl in let d := Slice (Dst 0) 0 dln in
  view_ok ms dl s -> cap ms dl s < usz T -> view_ok ms dl d -> cap ms dl d < usz T ->
  fits ms dl s ss h (bytes_per_pixel spf * w) -> fits ms dl d ds h (bytes_per_pixel dpf * w) ->
  exists k, x86_converter (Rgb_rgb spf dpf) = rgb_rgb_w (bytes_per_pixel spf) (bytes_per_pixel dpf) k /\
  runs T ms dl (k w h ss s ds d)
    (in_area (Area 0 0 ds h (bytes_per_pixel dpf * w)
      (fun y j => big_byte spf dpf w (ss - bytes_per_pixel spf * w) (y =? h - 1) (fun o => byte ms s (ss * y + o)) j))) tt.
Proof.
  intros HB HT Hsup Rs Rd W H W2 Ls Ld Os Od dl s d Vs Cs Vd Cd Fs Fd.
  assert (Bs : src_big T ms dl s) by (unfold src_big; repeat split; try assumption; try apply Vs; exists 0%nat; reflexivity).
  assert (Bd : dst_big T ms dl d 0) by (unfold dst_big; repeat split; try assumption; apply Vd).
  assert (0 < ss) by (destruct spf; try discriminate; cbn [bytes_per_pixel] in *; lia).
  assert (0 < ds) by (destruct dpf; try discriminate; cbn [bytes_per_pixel] in *; lia).
  assert (ss <= ss * h) by nia. assert (ds <= ds * h) by nia.
  destruct spf, dpf; try discriminate; (eexists; split; [reflexivity|]); cbn [bytes_per_pixel] in *.
  - apply runs_bgra_to_rgb; auto; try lia. destruct Fs as [F1 F2]. split; [exact F1|].
    pose proof (ReorderProofs.tail 4 w). unfold ReorderProofs.tail. destruct (_ && _); lia.
  - apply runs_bgr_to_rgb; auto; lia.
  - apply runs_rgb_to_bgra; auto; lia.
Qed.

(** With arguments that hold the strides and the buffers. *)
Lemma big_views T w h src dst sb db ss a sl ds b dln : is_target T -> well_formed (usz T) w h src dst sb db ->
  0 < w -> 0 < h -> laid_out src w h sb -> laid_out dst w h db ->
  valid_image src w h -> valid_image dst w h -> supported (i_pf src) (i_pf dst) = true ->
  is_rgb (i_pf src) = true -> is_rgb (i_pf dst) = true -> sizes_ok T src dst w h ->
  strides_view T (strides_or_default ss) (i_strides src) (i_planes src) ->
  strides_view T (strides_or_default ds) (i_strides dst) (i_planes dst) ->
  slices_view T a Src sb sl (i_planes src) -> slices_view T b Dst db dln (i_planes dst) ->
  sl 0%nat < usz T -> dln 0%nat < usz T -> size_check w h src dst sb db = true ->
  exists after, convert_image (converters X86) w h (format_of src) ss a (format_of dst) ds b (big_endian T) (Mem sb db)
    = Ok Success (Mem sb after) /\ big_reordered src dst w h sb db after.
Proof.
  intros HT HW W0 H0 [Is As] [Id Ad] Vs Vd Hsup Rs Rd HO VSs VSd VBs VBd Lsl Ldl Sc.
  destruct (format_planes_u32 _ _ _ _ _ _ _ HW) as [Us Ud].
  destruct HW as (Wr & Hr & _ & _ & Ss & Sd & Bs & Bd).
  pose proof (isize_usz T HT) as [I0 [I1 I2]].
  pose proof (buffers_len (isize_max T) sb 0 I0 Bs) as Lsb. pose proof (buffers_len (isize_max T) db 0 I0 Bd) as Ldb.
  assert (Ns : i_planes src = 1) by (destruct Vs as (_ & V & _); revert V; destruct (i_pf src); try discriminate; auto).
  assert (Nd : i_planes dst = 1) by (destruct Vd as (_ & V & _); revert V; destruct (i_pf dst); try discriminate; auto).
  destruct (VSs 0%nat ltac:(lia)) as (s0 & Hs0 & Us0 & Es0). destruct (VSd 0%nat ltac:(lia)) as (d0 & Hd0 & Ud0 & Ed0).
  destruct (VBs 0%nat ltac:(lia)) as [Hb0 [Lb0 _]]. destruct (VBd 0%nat ltac:(lia)) as [He0 [Le0 _]].
  pose proof (src_ok_i T HT sb db src dst _ _ VBs 0%nat ltac:(lia)) as (Ov & _ & Oc & _).
  pose proof (dst_ok_i T HT sb db src dst _ _ VBd 0%nat ltac:(lia)) as (Ov' & _ & Oc' & _).
  change (Z.of_nat 0) with 0 in *.
  unfold size_check, both_rgb in Sc. rewrite Rs, Rd in Sc. cbn [andb] in Sc. apply andb_true_iff in Sc. destruct Sc as [Sc Sc'].
  rewrite (accepted_rgb w h true (buf_len sb) src _ Rs eq_refl) in Sc. rewrite (accepted_rgb w h true (buf_len db) dst _ Rd eq_refl) in Sc'.
  pose proof (planes_rgb w h src _ Rs eq_refl) as Ps. pose proof (planes_rgb w h dst _ Rd eq_refl) as Pd.
  pose proof (bpp_rgb src src _ Rs) as Dps. pose proof (bpp_rgb src src _ Rd) as Dpd.
  destruct HO as [[Hov _] [Hov' _]].
  assert (Pos : 0 <= bytes_per_pixel (i_pf src) * w /\ 0 <= bytes_per_pixel (i_pf dst) * w) by nia.
  pose proof (FinalProofs.eff_stride_nonneg T src 0 _ HT Ss (proj1 Pos)) as N0. pose proof (FinalProofs.eff_stride_nonneg T dst 0 _ HT Sd (proj2 Pos)) as N1.
  unfold big_reordered, plane_of. rewrite Ps, Pd. unfold nth_plane. cbn [nth g_row g_stride].
  unfold image_in, rows_apart in *. rewrite Ps in Is, As. rewrite Pd in Id, Ad.
  inversion_clear Is as [|? ? Is1 _]. inversion_clear Id as [|? ? Id1 _].
  inversion_clear As as [|? ? As1 _]. inversion_clear Ad as [|? ? Ad1 _].
  unfold plane_in in *. cbn [g_base g_rows g_stride g_row g_buf] in *.
  set (ssv := eff_stride (i_strides src) 0 (bytes_per_pixel (i_pf src) * w)) in *.
  set (dsv := eff_stride (i_strides dst) 0 (bytes_per_pixel (i_pf dst) * w)) in *.
  assert (A1 : 0 <= w * (h - 1)) by (apply Z.mul_nonneg_nonneg; lia).
  assert (A2 := Sc). assert (A3 := Sc'). unfold accepts in A2, A3. unfold usz_range in *.
  assert (Sl : accepts (sl 0%nat) ssv h w = true) by (unfold accepts; lia).
  assert (Sl' : accepts (dln 0%nat) dsv h w = true) by (unfold accepts; lia).
  destruct (big_kernel (big_endian T) sb db w h (i_pf src) (i_pf dst) ssv dsv (sl 0%nat) (dln 0%nat)
    (buffers_bytes _ _ Bs) eq_refl Hsup Rs Rd W0) as (k & Ek & Run);
    cbn [big_endian usz]; [|lia|exact As1|exact Ad1|lia|lia|exact Ov|exact Oc|exact Ov'|exact Oc'|..].
  { split; [lia|]. apply (u32_lt_usz T HT). lia. }
  { apply (fits_src T sb db src dst _ _ VBs 0%nat); lia. }
  { apply (fits_dst T sb db src dst _ _ VBd 0%nat); lia. }
  assert (In : forall y j, 0 <= y < h -> 0 <= j < bytes_per_pixel (i_pf dst) * w -> 0 <= y * dsv + j < buf_len db 0).
  { intros y j Hy Hj. assert (0 <= y * dsv) by (apply Z.mul_nonneg_nonneg; lia).
    assert (y * dsv <= (h - 1) * dsv) by (apply Z.mul_le_mono_nonneg_r; lia). lia. }
  set (area := Area _ _ _ _ _ _) in Run.
  destruct (runs_final (big_endian T) sb (map (@length Z) db) (k w h ssv (Slice (Src 0) 0 (sl 0%nat)) dsv (Slice (Dst 0) 0 (dln 0%nat)) ;; ret true)
    (in_area area) true (Mem sb db)) as (m' & Ec & Hsh & Hfin).
  { eapply runs_bind1; [exact Run|apply exec_ret]. }
  { split; reflexivity. }
  { intros n p x (y & j & Hy & Hj & Ew). cbn [area a_buf a_base a_stride a_val a_rows a_cols] in *. injection Ew as -> -> _.
    unfold in_dst. change 0%nat with (@length Z []) at 2. rewrite map_nth. specialize (In y j Hy Hj). unfold buf_len in In. lia. }
  destruct m' as [ms' after]. destruct Hsh as [Hs1 Hs2]. cbn [srcs dsts] in Hs1, Hs2. subst ms'.
  exists after. split; [|split; [exact Hs2|split]].
  - destruct (convert_image_cases (converters X86) w h src ss a dst ds b (big_endian T) (Mem sb db) Us Ud)
      as [[N _]|[(_ & _ & N & _)|(_ & _ & _ & ->)]]; [tauto|congruence|].
    unfold call_converter, conv_of. rewrite Rs, Rd. change (converters X86) with x86_converter. rewrite Ek.
    rewrite (u32_planes _ _ (proj1 (proj2 Vs))), (u32_planes _ _ (proj1 (proj2 Vd))).
    pose proof (rgb_rgb_w_eq (big_endian T) (Mem sb db) (bytes_per_pixel (i_pf src)) (bytes_per_pixel (i_pf dst)) k w h
      (i_planes src - 1) (strides_or_default ss) a
      (i_planes dst - 1) (strides_or_default ds) b s0 (Slice (Src 0) 0 (sl 0%nat)) d0 (Slice (Dst 0) 0 (dln 0%nat))) as Eq.
    cbv zeta in Eq. cbn [s_plane s_off s_len] in Eq. rewrite Es0, Ed0 in Eq. fold dsv ssv in Eq.
    rewrite Sl, Sl' in Eq. cbn [andb] in Eq. unfold usz_range in Eq. cbn [big_endian usz] in Eq.
    cbn [bind run]. rewrite Eq; [rewrite Ec; reflexivity|..]; auto; try lia.
    + split; [lia|]. apply (u32_lt_usz T HT). lia.
    + split; [lia|]. apply (u32_lt_usz T HT). lia.
  - intros y j Hy Hj.
    destruct (Hfin 0%nat (y * dsv + j) (proj1 (In y j Hy Hj))) as [[_ Hno]|Hyes].
    { exfalso. apply (Hno (a_val area y j)). exists y, j. cbn [area a_buf a_base a_stride a_rows a_cols]. repeat split; try lia. }
    destruct Hyes as (y' & j' & Hy' & Hj' & Ew). cbn [area a_buf a_base a_stride a_val a_rows a_cols] in *.
    injection Ew as Ea Ev. assert (Ey : y = y').
    { destruct (Z.lt_trichotomy y y') as [L|[L|L]]; [exfalso|exact L|exfalso].
      - assert ((y + 1) * dsv <= y' * dsv) by (apply Z.mul_le_mono_nonneg_r; lia). lia.
      - assert ((y' + 1) * dsv <= y * dsv) by (apply Z.mul_le_mono_nonneg_r; lia). lia. }
    subst y'. assert (j = j') by lia. subst j'.
    unfold dbyte in Ev. cbn [dsts] in Ev. unfold sample. cbn [g_base g_stride g_buf]. rewrite Z.add_0_l, Ev.
    apply big_byte_ext. intros o. unfold byte. cbn [s_plane s_off]. f_equal. f_equal. lia.
  - intros n x Ha Hno.
    destruct (Hfin n x ltac:(lia)) as [[Eb _]|Hyes]; [exact Eb|].
    exfalso. apply Hno. destruct Hyes as (y & j & Hy & Hj & Ew). cbn [area a_buf a_base a_stride a_val a_rows a_cols] in *.
    injection Ew as -> -> _. unfold in_image. rewrite Pd.
    eexists. exists y, j. split; [left; reflexivity|]. cbn [g_buf g_rows g_row g_base g_stride]. repeat split; lia.
Qed.

Lemma big_order T w h src dst sb db m : successful_call (converters X86) T w h src dst sb db m ->
  is_rgb (i_pf src) = true -> is_rgb (i_pf dst) = true ->
  (exists after, convert (converters X86) (big_endian T) w h src dst sb db = Ok Success (Mem sb after) /\
     big_reordered src dst w h sb db after) /\
  (forall error, exists after,
     c_convert (converters X86) (big_endian T) w h src dst sb db error = Ok (C_Ok, error) (Mem sb after) /\
     big_reordered src dst w h sb db after).
Proof.
  intros HS Rs Rd. destruct (success_valid _ _ _ _ _ _ _ _ _ HS) as (Vs & Vd & Hsup).
  destruct HS as (HT & HW & W0 & H0 & Ls & Ld & E).
  assert (HO : sizes_ok T src dst w h) by (eapply images_sizes_ok; eauto; apply Ls || apply Ld).
  destruct (set_cases X86 T HT w h src dst sb db HW HO)
    as [C|[C|[C|[C|[C|C]]]]]; try (exfalso; intuition (congruence || lia)).
  destruct C as (_ & _ & _ & _ & [En En'] & Sc & _).
  destruct (format_planes_u32 _ _ _ _ _ _ _ HW) as [Us Ud].
  assert (HW' := HW). destruct HW' as (Wr & Hr & _ & _ & Ss & Sd & Bs & Bd).
  pose proof (isize_usz T HT) as [I0 [I1 I2]].
  pose proof (buffers_len (isize_max T) sb 0 I0 Bs) as Lsb. pose proof (buffers_len (isize_max T) db 0 I0 Bd) as Ldb.
  assert (Bs' : buffers_ok (isize_max T + 8) sb) by (eapply buffers_ok_le; [|exact Bs]; unfold isize_max; lia).
  assert (Bd' : buffers_ok (isize_max T + 8) db) by (eapply buffers_ok_le; [|exact Bd]; unfold isize_max; lia).
  assert (Ns : i_planes src = 1) by (destruct Vs as (_ & V & _); revert V; destruct (i_pf src); try discriminate; auto).
  assert (Nd : i_planes dst = 1) by (destruct Vd as (_ & V & _); revert V; destruct (i_pf dst); try discriminate; auto).
  split.
  - eapply big_views; try eassumption.
    + exact (strides_view_rust T src sb HT (proj1 (proj2 Vs)) En Ss).
    + exact (strides_view_rust T dst db HT (proj1 (proj2 Vd)) En' Sd).
    + exact (slices_view_rust T Src sb _ HT (proj1 En) Bs').
    + exact (slices_view_rust T Dst db _ HT (proj1 En') Bd').
    + lia.
    + lia.
  - intros error.
    destruct (big_views T w h src dst sb db (option_map (Arr (isize_max T)) (i_strides src)) (c_slices T Src (i_planes src)) (fun _ => isize_max T)
      (option_map (Arr (isize_max T)) (i_strides dst)) (c_slices T Dst (i_planes dst)) (fun _ => isize_max T) HT HW W0 H0 Ls Ld Vs Vd Hsup Rs Rd HO)
      as (after & Ea & Ra); try assumption; try lia.
    + exact (strides_view_c T HT src sb (proj1 (proj2 Vs)) En Ss).
    + exact (strides_view_c T HT dst db (proj1 (proj2 Vd)) En' Sd).
    + apply slices_view_c; auto; lia.
    + apply slices_view_c; auto; lia.
    + exists after. split; [|exact Ra].
      rewrite (c_convert_eq (big_endian T) (converters X86) w h Wr Hr src dst sb db error Us Ud (proj1 En) (proj1 En')).
      change (isize_max (big_endian T)) with (isize_max T). change (c_slices (big_endian T)) with (c_slices T).
      cbv zeta. rewrite Ea. reflexivity.
Qed.
