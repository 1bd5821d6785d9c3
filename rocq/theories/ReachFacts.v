(** A call that succeeds had all colours of the image inside of its buffers: it does the same
    with buffers made longer, whatever the added bytes are. *)
From Coq Require Import ZArith List Bool Lia ZifyBool ZifyNat.
Import ListNotations.
From Verif Require Import Base Fmt Common Scalar Wrappers LibFacts Vector CpuInfo Lib Sets Spec SimdSpec SetSpec ApiSpec Api
  ReachSpec ConvProofs ApiProofs ConvertProofs FinalProofs ResultFacts PadFacts PropFacts CApiFacts SetProofs CallFacts Extend.
Open Scope Z_scope.
Ltac Zify.zify_post_hook ::= Z.div_mod_to_equations.

(** Buffers made longer. *)
Definition extended (bufs pads : list (list Z)) : list (list Z) :=
  map (fun p => fst p ++ snd p) (combine bufs pads).

Lemma extended_nth bufs : forall pads n, length pads = length bufs ->
  nth n (extended bufs pads) [] = nth n bufs [] ++ nth n pads [].
Proof.
  induction bufs as [|b bufs IH]; intros [|p pads] n E; cbn in E; try lia.
  - destruct n; reflexivity.
  - destruct n as [|n]; [reflexivity|]. apply (IH pads n). lia.
Qed.
Lemma extended_length bufs pads : length pads = length bufs -> length (extended bufs pads) = length bufs.
Proof. intros E. unfold extended. rewrite map_length, combine_length. lia. Qed.

Lemma slices_nth mk bufs : forall i n,
  nth_error (slices_from mk i bufs) n =
  if (n <? length bufs)%nat then Some (Slice (mk (i + n)%nat) 0 (zlen (nth n bufs []))) else None.
Proof.
  induction bufs as [|b bufs IH]; intros i n.
  - destruct n; reflexivity.
  - destruct n as [|n]; cbn [slices_from nth_error length nth].
    + rewrite Nat.add_0_r. reflexivity.
    + rewrite IH. replace (S i + n)%nat with (i + S n)%nat by lia. reflexivity.
Qed.

Section Runs.
Variable T : target.
Hypothesis HT : is_target T.
Variable set : instruction_set.
Variables (w h : Z) (src dst : image).
Hypothesis (W : 0 <= w < 2 ^ 32) (H : 0 <= h < 2 ^ 32).
Hypothesis (Us : planes_u32 src) (Ud : planes_u32 dst).
Hypothesis (Ss : strides_below (usz T) src) (Sd : strides_below (usz T) dst).
Hypothesis (W0 : 0 < w) (H0 : 0 < h).
Hypothesis (Rs : rows_apart src w h) (Rd : rows_apart dst w h).
Hypothesis (Xs : extent_below (isize_max T) src w h) (Xd : extent_below (isize_max T) dst w h).

Lemma eff_nonneg im i row : strides_below (usz T) im -> 0 <= row -> 0 <= eff_stride (i_strides im) i row.
Proof.
  unfold strides_below, eff_stride. intros S R. destruct (i_strides im) as [l|]; [|lia].
  destruct (nth_in_or_default i l 0) as [Hi|Hi].
  - rewrite Forall_forall in S. specialize (S _ Hi). destruct (_ =? 0); lia.
  - rewrite Hi. change (0 =? 0) with true. cbv iota. lia.
Qed.

(** The strides as the code gets them. *)
Definition strides_of (im : image) (ss : option (arr Z)) : Prop := option_map adata ss = i_strides im.

Lemma wide_of im ss i row : strides_of im ss -> strides_below (usz T) im -> 0 <= row ->
  row <= eff_stride (i_strides im) (Z.to_nat i) row -> wide T (strides_or_default ss) i row.
Proof.
  unfold strides_of, wide, aidx, eff_stride, compute_stride. intros E S R0 R m v m' A.
  destruct ss as [a|]; cbn [option_map strides_or_default] in *; rewrite <- E in R; cbv iota in R.
  - destruct (_ && _); [|discriminate A].
    destruct (nth_error (adata a) (Z.to_nat i)) as [x|] eqn:N; [|discriminate A].
    injection A as <- _. apply (nth_error_nth _ _ 0) in N. rewrite N in R. lia.
  - assert (v = 0) as ->; [|cbn; lia].
    destruct (_ && _); [|discriminate A].
    destruct (nth_error _ _) as [x|] eqn:N; [|discriminate A]. injection A as <- _.
    apply nth_error_In in N. unfold arr_of, DEFAULT_STRIDES, STRIDE_AUTO in N. cbn [adata In] in N. intuition.
Qed.

Lemma row_below im g : extent_below (isize_max T) im w h -> In g (image_planes im w h) ->
  0 <= g_base g -> 0 <= (g_rows g - 1) * g_stride g -> g_row g <= isize_max T.
Proof. unfold extent_below. rewrite Forall_forall. intros X G B S. specialize (X g G). cbv beta in X. lia. Qed.

Lemma packed_below im : is_rgb (i_pf im) = true -> strides_below (usz T) im -> extent_below (isize_max T) im w h ->
  0 <= pf_depth (i_pf im) * w < usz T.
Proof.
  intros R S X. destruct (isize_usz T HT) as (Z1 & Z2 & Z3).
  assert (P : pf_depth (i_pf im) = bytes_per_pixel (i_pf im)) by (destruct (i_pf im); try discriminate; reflexivity).
  assert (P0 : 0 < bytes_per_pixel (i_pf im)) by (destruct (i_pf im); try discriminate; reflexivity).
  rewrite P. assert (0 <= bytes_per_pixel (i_pf im) * w) by (apply Z.mul_nonneg_nonneg; lia).
  set (g := Geom 0 0 (eff_stride (i_strides im) 0 (bytes_per_pixel (i_pf im) * w)) h (bytes_per_pixel (i_pf im) * w)).
  assert (G : In g (image_planes im w h)).
  { unfold g, image_planes. destruct (i_pf im); try discriminate; left; reflexivity. }
  pose proof (row_below im g X G ltac:(cbn; lia)) as B. unfold g in B. cbn [g_rows g_stride g_row] in B.
  assert (0 <= (h - 1) * eff_stride (i_strides im) 0 (bytes_per_pixel (i_pf im) * w)).
  { apply Z.mul_nonneg_nonneg; [lia|]. apply eff_nonneg; auto. }
  lia.
Qed.

Lemma u32_planes im : valid_image im w h -> Z.to_nat (u32 (i_planes im - 1)) = Z.to_nat (i_planes im - 1).
Proof.
  intros (_ & V & _). unfold u32. destruct (i_pf im); cbn in V; try (rewrite V; reflexivity).
  destruct V as [-> | ->]; reflexivity.
Qed.

Lemma wide_packed im ss : is_rgb (i_pf im) = true -> strides_below (usz T) im -> strides_of im ss ->
  rows_apart im w h -> wide T (strides_or_default ss) 0 (pf_depth (i_pf im) * w).
Proof.
  intros R S E A. unfold rows_apart, image_planes in A.
  destruct (i_pf im); try discriminate; cbn [planes bytes_per_pixel pf_depth] in *;
    apply Forall_inv in A; cbn [g_row g_stride] in A; apply wide_of with (im := im); auto; lia.
Qed.

Lemma wide_planar im ss : is_rgb (i_pf im) = false -> i_pf im <> I422 -> valid_image im w h ->
  strides_below (usz T) im -> strides_of im ss -> rows_apart im w h ->
  wide T (strides_or_default ss) 0 w /\
  match i_pf im with
  | I420 => wide T (strides_or_default ss) 1 (w / 2) /\ wide T (strides_or_default ss) 2 (w / 2)
  | I444 => wide T (strides_or_default ss) 1 (w / 1) /\ wide T (strides_or_default ss) 2 (w / 1)
  | _ => wide T (strides_or_default ss) (u32 (i_planes im - 1)) w
  end.
Proof.
  intros R N V S E A. pose proof (u32_planes im V) as U. unfold rows_apart, image_planes in A.
  destruct V as (_ & V & _). rewrite ?Z.div_1_r.
  destruct (i_pf im); try discriminate; try congruence; cbn [planes valid_num_planes] in *.
  - rewrite !Forall_cons_iff in A. cbn [g_row g_stride] in A. destruct A as (A1 & A2 & A3 & _).
    split; [|split]; apply wide_of with (im := im); auto; lia.
  - rewrite !Forall_cons_iff in A. cbn [g_row g_stride] in A. destruct A as (A1 & A2 & A3 & _).
    split; [|split]; apply wide_of with (im := im); auto; lia.
  - destruct V as [V|V]; rewrite V in A, U |- *; change (1 =? 1) with true in A; change (2 =? 1) with false in A;
      cbv zeta iota in A; rewrite !Forall_cons_iff in A; cbn [g_row g_stride] in A; destruct A as (A1 & A2 & _).
    + split; apply wide_of with (im := im); auto; lia.
    + split; apply wide_of with (im := im); auto; lia.
Qed.

Lemma supported_of : valid_image src w h -> valid_image dst w h -> supported (i_pf src) (i_pf dst) = true ->
  forall ss ds, strides_of src ss -> strides_of dst ds ->
  supported_conv (conv_of (i_pf src) (i_pf dst) (i_cs src) (i_cs dst)) /\
  conv_wide T (conv_of (i_pf src) (i_pf dst) (i_cs src) (i_cs dst)) w (u32 (i_planes src - 1)) (u32 (i_planes dst - 1))
    (strides_or_default ss) (strides_or_default ds).
Proof.
  intros Vs Vd Hsup ss ds Es Ed. unfold conv_of. split.
  - destruct (i_pf src), (i_pf dst); try discriminate Hsup; cbn; tauto.
  - assert (I422_not : i_pf src <> I422 /\ i_pf dst <> I422).
    { destruct (i_pf src), (i_pf dst); try discriminate Hsup; split; discriminate. }
    destruct (is_rgb (i_pf src)) eqn:Ks, (is_rgb (i_pf dst)) eqn:Kd; cbn [conv_wide].
    + split; [|split; [|split]]; auto using packed_below, wide_packed.
    + destruct (wide_planar dst ds Kd) as [P1 P2]; try tauto. split; [|split; [|split]]; auto using packed_below, wide_packed.
    + destruct (wide_planar src ss Ks) as [P1 P2]; try tauto. split; [|split; [|split]]; auto using packed_below, wide_packed.
    + exfalso. destruct (i_pf src), (i_pf dst); discriminate.
Qed.

Section Longer.
Variables (sb db PS PD : list (list Z)).
Hypothesis (Ls : length PS = length sb) (Ld : length PD = length db).
Hypothesis Bs : forall n, buf_len (extended sb PS) n < usz T.
Hypothesis Bd : forall n, buf_len (extended db PD) n < usz T.

Lemma pads_mem n : exists pad, nth n (extended sb PS) [] = nth n sb [] ++ pad.
Proof. eexists. apply extended_nth. exact Ls. Qed.

Lemma longer_slices mk bufs pads : length pads = length bufs -> (forall n, buf_len (extended bufs pads) n < usz T) ->
  longer_all T (arr_of (rust_slices mk bufs)) (arr_of (rust_slices mk (extended bufs pads))).
Proof.
  intros L B. unfold longer_all, rust_slices. split.
  - unfold arr_of, zlen. cbn [alen]. f_equal.
    assert (forall bufs i, length (slices_from mk i bufs) = length bufs) as E
      by (induction bufs0; intros; cbn; auto).
    rewrite !E. symmetry. apply extended_length. exact L.
  - intros i. cbn [arr_of adata]. rewrite !slices_nth, extended_length by exact L.
    destruct (i <? length bufs)%nat; [|exact I]. unfold longer. cbn [s_plane s_off s_len].
    rewrite extended_nth by exact L. specialize (B i). unfold buf_len in B. rewrite extended_nth in B by exact L.
    unfold zlen in *. rewrite app_length in *. repeat split; lia.
Qed.

Lemma call_extends ss ds b1 b2 d1 d2 m1 m2 : valid_image src w h -> valid_image dst w h ->
  supported (i_pf src) (i_pf dst) = true -> strides_of src ss -> strides_of dst ds ->
  longer_all T b1 b2 -> longer_all T d1 d2 -> grown sb (extended sb PS) PD m1 m2 ->
  match call_converter (converters set) w h src dst ss b1 ds d1 T m1 with
  | Ok (Err _) _ => True
  | Ok Success m1' => exists m2', call_converter (converters set) w h src dst ss b2 ds d2 T m2 = Ok Success m2' /\
                        grown sb (extended sb PS) PD m1' m2'
  | Fault OOB_read | Fault OOB_write => True
  | Fault f => call_converter (converters set) w h src dst ss b2 ds d2 T m2 = Fault f
  end.
Proof.
  intros Vs Vd Hsup Es Ed LB LD HG. destruct (supported_of Vs Vd Hsup ss ds Es Ed) as [Sc Cw].
  destruct (isize_usz T HT) as (Z1 & Z2 & Z3).
  pose proof (converter_extends T sb (extended sb PS) PD pads_mem ltac:(lia) set _ w h (u32 (i_planes src - 1)) (strides_or_default ss)
    b1 b2 (u32 (i_planes dst - 1)) (strides_or_default ds) d1 d2 Sc ltac:(lia) Cw LB LD m1 m2 HG) as C.
  (unfold call_converter, bind, ret; cbn [run]).
  destruct (converters set _ w h _ _ b1 _ _ d1 T m1) as [v m1'|f].
  - destruct v; [|exact I]. destruct C as [C|(m2' & -> & G)]; [discriminate C|]. eauto.
  - destruct f; auto; rewrite C; reflexivity.
Qed.

Lemma convert_extends :
  match convert (converters set) T w h src dst sb db with
  | Ok (Err _) _ => True
  | Ok Success m1 => exists m2, convert (converters set) T w h src dst (extended sb PS) (extended db PD) = Ok Success m2 /\
      srcs m1 = sb /\ forall n, nth n (dsts m2) [] = nth n (dsts m1) [] ++ nth n PD []
  | Fault OOB_read | Fault OOB_write => True
  | Fault f => convert (converters set) T w h src dst (extended sb PS) (extended db PD) = Fault f
  end.
Proof.
  unfold convert. set (ss := option_map arr_of (i_strides src)). set (ds := option_map arr_of (i_strides dst)).
  destruct (convert_image_cases (converters set) w h src ss (arr_of (rust_slices Src sb)) dst ds (arr_of (rust_slices Dst db)) T
              (Mem sb db) Us Ud) as [[_ E]|[(_ & _ & _ & E)|(Vs & Vd & Hsup & E)]]; cbv zeta in E.
  - rewrite E. exact I.
  - rewrite E. exact I.
  - destruct (convert_image_cases (converters set) w h src ss (arr_of (rust_slices Src (extended sb PS))) dst ds
                (arr_of (rust_slices Dst (extended db PD))) T (Mem (extended sb PS) (extended db PD)) Us Ud)
      as [[N _]|[(_ & _ & N & _)|(_ & _ & _ & E')]]; [tauto|congruence|]; cbv zeta in E'.
    rewrite E, E'.
    pose proof (call_extends ss ds _ _ _ _ (Mem sb db) (Mem (extended sb PS) (extended db PD)) Vs Vd Hsup
      ltac:(unfold strides_of, ss; destruct (i_strides src); reflexivity)
      ltac:(unfold strides_of, ds; destruct (i_strides dst); reflexivity)
      (longer_slices Src sb PS Ls Bs) (longer_slices Dst db PD Ld Bd)) as C.
    specialize (C ltac:(unfold grown; cbn [srcs dsts]; repeat split; intros; apply extended_nth; exact Ld)).
    destruct (call_converter (converters set) w h src dst ss _ ds _ T (Mem sb db)) as [[|e] m1|f]; auto.
    destruct C as (m2 & C & G1 & G2 & G3). exists m2. auto.
Qed.

Lemma c_slices_longer mk n : longer_all T (c_slices T mk n) (c_slices T mk n).
Proof.
  destruct (isize_usz T HT) as (Z1 & Z2 & Z3). split; [reflexivity|]. intros i.
  destruct (nth_error _ i) as [s|] eqn:E; [|exact I]. unfold c_slices in E. cbn [adata] in E.
  apply nth_error_In in E. apply in_map_iff in E. destruct E as (k & <- & _). unfold longer. cbn [s_plane s_off s_len].
  repeat split; lia.
Qed.

Lemma c_convert_extends error : enough_planes src sb -> enough_planes dst db ->
  match c_convert (converters set) T w h src dst sb db error with
  | Ok (C_Err, _) _ => True
  | Ok (C_Ok, e) m1 => exists m2, c_convert (converters set) T w h src dst (extended sb PS) (extended db PD) error = Ok (C_Ok, e) m2 /\
      srcs m1 = sb /\ forall n, nth n (dsts m2) [] = nth n (dsts m1) [] ++ nth n PD []
  | Fault OOB_read | Fault OOB_write => True
  | Fault f => c_convert (converters set) T w h src dst (extended sb PS) (extended db PD) error = Fault f
  end.
Proof.
  intros [En1 _] [En2 _]. destruct (isize_usz T HT) as (Z1 & Z2 & Z3).
  rewrite (c_convert_eq T) by assumption. rewrite (c_convert_eq T) by (try assumption; rewrite extended_length; assumption).
  set (ss := option_map (Arr (isize_max T)) (i_strides src)). set (ds := option_map (Arr (isize_max T)) (i_strides dst)).
  destruct (convert_image_cases (converters set) w h src ss (c_slices T Src (i_planes src)) dst ds (c_slices T Dst (i_planes dst)) T
              (Mem sb db) Us Ud) as [[_ E]|[(_ & _ & _ & E)|(Vs & Vd & Hsup & E)]]; cbv zeta in E.
  - rewrite E. destruct error; exact I.
  - rewrite E. destruct error; exact I.
  - destruct (convert_image_cases (converters set) w h src ss (c_slices T Src (i_planes src)) dst ds
                (c_slices T Dst (i_planes dst)) T (Mem (extended sb PS) (extended db PD)) Us Ud)
      as [[N _]|[(_ & _ & N & _)|(_ & _ & _ & E')]]; [tauto|congruence|]; cbv zeta in E'.
    rewrite E, E'.
    pose proof (call_extends ss ds _ _ _ _ (Mem sb db) (Mem (extended sb PS) (extended db PD)) Vs Vd Hsup
      ltac:(unfold strides_of, ss; destruct (i_strides src); reflexivity)
      ltac:(unfold strides_of, ds; destruct (i_strides dst); reflexivity)
      (c_slices_longer Src (i_planes src)) (c_slices_longer Dst (i_planes dst))) as C.
    specialize (C ltac:(unfold grown; cbn [srcs dsts]; repeat split; intros; apply extended_nth; exact Ld)).
    destruct (call_converter (converters set) w h src dst ss _ ds _ T (Mem sb db)) as [[|e] m1|f]; auto.
    + destruct C as (m2 & C & G1 & G2 & G3). exists m2. cbn [c_result_of]. rewrite C. auto.
    + destruct error; exact I.
    + destruct f; auto; rewrite C; reflexivity.
Qed.
End Longer.
End Runs.

(** ** Buffers filled up to a given length *)
Definition pads (L : Z) (f : nat -> Z) (bufs : list (list Z)) : list (list Z) :=
  map (fun p => repeat (f (fst p)) (Z.to_nat (L - zlen (snd p)))) (combine (seq 0 (length bufs)) bufs).
Definition filled (L : Z) (f : nat -> Z) (bufs : list (list Z)) : list (list Z) := extended bufs (pads L f bufs).

Lemma pads_length L f bufs : length (pads L f bufs) = length bufs.
Proof. unfold pads. rewrite map_length, combine_length, seq_length. lia. Qed.
Lemma pads_nth_from L (f : nat -> Z) (bufs : list (list Z)) : forall i n, (n < length bufs)%nat ->
  nth n (map (fun p => repeat (f (fst p)) (Z.to_nat (L - zlen (snd p)))) (combine (seq i (length bufs)) bufs)) [] =
  repeat (f (i + n)%nat) (Z.to_nat (L - zlen (nth n bufs []))).
Proof.
  induction bufs as [|b bufs IH]; intros i n Hn; cbn [length] in Hn; [lia|].
  destruct n as [|n]; cbn [length seq combine map nth fst snd].
  - rewrite Nat.add_0_r. reflexivity.
  - rewrite IH by lia. replace (S i + n)%nat with (i + S n)%nat by lia. reflexivity.
Qed.
Lemma pads_nth L f bufs n : (n < length bufs)%nat ->
  nth n (pads L f bufs) [] = repeat (f n) (Z.to_nat (L - buf_len bufs n)).
Proof. intros Hn. unfold pads. rewrite pads_nth_from by exact Hn. reflexivity. Qed.

Lemma filled_nth L f bufs n : (n < length bufs)%nat ->
  nth n (filled L f bufs) [] = nth n bufs [] ++ repeat (f n) (Z.to_nat (L - buf_len bufs n)).
Proof. intros Hn. unfold filled. rewrite extended_nth by apply pads_length. rewrite pads_nth by exact Hn. reflexivity. Qed.
Lemma filled_length L f bufs : length (filled L f bufs) = length bufs.
Proof. apply extended_length, pads_length. Qed.

Lemma filled_len L f bufs n : (n < length bufs)%nat -> buf_len bufs n <= L -> buf_len (filled L f bufs) n = L.
Proof.
  intros Hn HL. unfold buf_len at 1. rewrite filled_nth by exact Hn. rewrite app_length, repeat_length.
  unfold buf_len in *. lia.
Qed.
Lemma filled_ok L f bufs : buffers_ok L bufs -> (forall n, 0 <= f n <= 255) -> buffers_ok L (filled L f bufs).
Proof.
  intros B F. unfold buffers_ok in *. rewrite Forall_forall in *. intros b Hb.
  apply In_nth with (d := []) in Hb. destruct Hb as (n & Hn & <-). rewrite filled_length in Hn.
  specialize (B (nth n bufs []) (nth_In _ _ Hn)). destruct B as [B1 B2].
  rewrite filled_nth by exact Hn. split.
  - rewrite app_length, repeat_length. unfold buf_len. lia.
  - apply Forall_app. split; [exact B2|]. apply Forall_forall. intros x Hx. apply repeat_spec in Hx. subst x. apply F.
Qed.

Lemma nth_repeat_lt (v d : Z) : forall k n, (n < k)%nat -> nth n (repeat v k) d = v.
Proof. induction k as [|k IH]; intros n Hn; [lia|]. destruct n; cbn [repeat nth]; [reflexivity|]. apply IH. lia. Qed.
Lemma filled_sample L f bufs g y j : (g_buf g < length bufs)%nat ->
  let a := g_base g + y * g_stride g + j in
  0 <= a < L ->
  sample (filled L f bufs) g y j = if a <? buf_len bufs (g_buf g) then sample bufs g y j else f (g_buf g).
Proof.
  intros Hn a Ha. unfold sample. fold a. rewrite filled_nth by exact Hn. unfold buf_len in *.
  destruct (Z.ltb_spec a (Z.of_nat (length (nth (g_buf g) bufs [])))).
  - rewrite app_nth1 by lia. reflexivity.
  - rewrite app_nth2 by lia. apply nth_repeat_lt. lia.
Qed.

(** ** The colours of the last pixel *)
Lemma clamp_mono a b : a <= b -> clamp255 (a / 64) <= clamp255 (b / 64).
Proof. intros E. unfold clamp255. assert (a / 64 <= b / 64) by (apply Z.div_le_mono; lia). lia. Qed.

Definition red64 (cs : color_space) (l cr : Z) : Z := fst (fst (rgb64 cs l 0 cr)).
Definition blue64 (cs : color_space) (l cb : Z) : Z := snd (rgb64 cs l cb 0).
Definition the_red (p : rgb) : Z := fst (fst p).
Definition the_blue (p : rgb) : Z := snd p.

Lemma red64_range cs l cr : 0 <= l <= 255 -> 0 <= cr <= 255 -> -32768 <= red64 cs l cr < 32768.
Proof. intros. unfold red64, rgb64. destruct cs; cbn [rgb_coefs fst snd]; lia. Qed.
Lemma the_red_any cs l cb cr (wrap : bool) : 0 <= l <= 255 -> 0 <= cr <= 255 ->
  the_red ((if wrap then ycc_to_rgb_wrap else ycc_to_rgb) cs l cb cr) = clamp255 (red64 cs l cr / 64).
Proof.
  intros Hl Hc. pose proof (red64_range cs l cr Hl Hc) as R. unfold red64 in *.
  unfold ycc_to_rgb_wrap, ycc_to_rgb. destruct wrap; destruct cs; cbn [rgb64 rgb_coefs fst snd the_red] in *;
    try rewrite wrap16_id by exact R; reflexivity.
Qed.
Lemma the_blue_any cs l cb cr (wrap : bool) : 0 <= l <= 255 -> 0 <= cb <= 200 ->
  the_blue ((if wrap then ycc_to_rgb_wrap else ycc_to_rgb) cs l cb cr) = clamp255 (blue64 cs l cb / 64).
Proof.
  intros Hl Hc.
  assert (R : -32768 <= blue64 cs l cb < 32768) by (unfold blue64, rgb64; destruct cs; cbn [rgb_coefs fst snd]; lia).
  unfold blue64 in *.
  unfold ycc_to_rgb_wrap, ycc_to_rgb. destruct wrap; destruct cs; cbn [rgb64 rgb_coefs fst snd the_blue] in *;
    try rewrite wrap16_id by exact R; reflexivity.
Qed.

Lemma red_by_luma cs cr : cs <> CsRgb -> 0 <= cr <= 255 ->
  clamp255 (red64 cs 0 cr / 64) <> clamp255 (red64 cs 255 cr / 64).
Proof. intros Hc H. unfold clamp255, red64, rgb64. destruct cs; cbn [rgb_coefs fst snd]; try congruence; lia. Qed.
Lemma red_by_chroma cs l1 l2 : cs <> CsRgb -> 0 <= l1 <= 255 -> 0 <= l2 <= 255 ->
  clamp255 (red64 cs l1 0 / 64) <> clamp255 (red64 cs l2 255 / 64).
Proof. intros Hc H1 H2. unfold clamp255, red64, rgb64. destruct cs; cbn [rgb_coefs fst snd]; try congruence; lia. Qed.
Lemma blue_by_chroma cs l : cs <> CsRgb -> 0 <= l <= 255 ->
  clamp255 (blue64 cs l 0 / 64) <> clamp255 (blue64 cs l 200 / 64).
Proof. intros Hc H. unfold clamp255, blue64, rgb64. destruct cs; cbn [rgb_coefs fst snd]; try congruence; lia. Qed.

Lemma luma_grows cs r g b r' g' b' : cs <> CsRgb -> r <= r' -> g <= g' -> b <= b' ->
  r + 255 <= r' \/ b + 255 <= b' -> luma cs (r, g, b) < luma cs (r', g', b').
Proof. intros Hc H1 H2 H3 H4. unfold luma, round_up, dot. destruct cs; cbn [y_weights y_min]; try congruence; lia. Qed.

Lemma plane_buf im w h (bufs : list (list Z)) g : valid_image im w h -> i_planes im <= Z.of_nat (length bufs) -> In g (image_planes im w h) ->
  (g_buf g < length bufs)%nat.
Proof.
  intros (_ & V & _) E. unfold image_planes, planes.
  destruct (i_pf im); cbn [valid_num_planes] in V; try destruct (Z.eqb_spec (i_planes im) 1); cbn [In]; intros G;
    repeat (destruct G as [G|G]; [subst g; cbn [g_buf]; lia|]); destruct G.
Qed.

Lemma filled_in L im w h bufs f : valid_image im w h -> i_planes im <= Z.of_nat (length bufs) ->
  extent_below L im w h -> 0 <= L -> buffers_ok L bufs -> image_in 0 im w h (filled L f bufs).
Proof.
  intros V E X L0 B. unfold image_in, extent_below in *. rewrite Forall_forall in *. intros g G. specialize (X g G). cbv beta in X.
  unfold plane_in. rewrite filled_len; [lia|eapply plane_buf; eauto|]. apply buffers_len; auto.
Qed.

(** ** Successful runs *)
Section Reach.
Variables (w h : Z) (src dst : image) (L : Z) (A : columns).
Hypothesis (W0 : 0 < w) (H0 : 0 < h).
Hypothesis (Vs : valid_image src w h) (Vd : valid_image dst w h).
Hypothesis Hsup : supported (i_pf src) (i_pf dst) = true.
Hypothesis (Rs : rows_apart src w h) (Rd : rows_apart dst w h).
Hypothesis (Xs : extent_below L src w h) (Xd : extent_below L dst w h).
Hypothesis Hstr : forall im i row, im = src \/ im = dst -> 0 <= row -> 0 <= eff_stride (i_strides im) i row.
Hypothesis Aluma : forall x, ar_luma (A x) = luma.
Hypothesis Argb : is_rgb (i_pf src) = false -> forall x, 0 <= x -> exists wrap : bool, ar_rgb (A x) = if wrap then ycc_to_rgb_wrap else ycc_to_rgb.

Variables (sb db : list (list Z)) (after : list (list Z)).
Hypothesis (Bs : buffers_ok L sb) (Bd : buffers_ok L db) (L0 : 0 <= L).
Hypothesis (Es : enough_planes src sb) (Ed : enough_planes dst db).
(** The conversion gives [after], and the same with filled buffers. *)
Hypothesis Hrun : forall f u, (forall n, 0 <= f n <= 255) -> (forall n, 0 <= u n <= 255) ->
  image_in 0 src w h (filled L f sb) -> image_in 0 dst w h (filled L u db) ->
  exists after2, converted A src dst w h (filled L f sb) (filled L u db) after2 /\
    forall n, nth n after2 [] = nth n after [] ++ nth n (pads L u db) [].

Lemma filled_run f u : (forall n, 0 <= f n <= 255) -> (forall n, 0 <= u n <= 255) ->
  exists after2, converted A src dst w h (filled L f sb) (filled L u db) after2 /\
    forall n, nth n after2 [] = nth n after [] ++ nth n (pads L u db) [].
Proof. intros Hf Hu. apply Hrun; auto; apply filled_in; auto; [apply Es|apply Ed]. Qed.

Lemma geom_facts im g : im = src \/ im = dst -> valid_image im w h -> In g (image_planes im w h) ->
  0 <= g_base g /\ 0 <= g_stride g /\ 1 <= g_rows g /\ 0 < g_row g.
Proof.
  intros Him (_ & _ & V) G. pose proof (fun i row => Hstr im i row Him) as S.
  unfold image_planes, planes in G.
  destruct (i_pf im); cbn [valid_size] in V; try destruct (Z.eqb_spec (i_planes im) 1); cbn [In bytes_per_pixel] in G;
    repeat (destruct G as [G|G];
      [subst g; cbn [g_base g_stride g_rows g_row]; repeat split; try lia; try (apply S; lia);
       try (apply Z.mul_nonneg_nonneg; [apply S; lia|lia])|]); destruct G.
Qed.

(** *** The destination *)
Lemma dst_inside : image_in 0 dst w h db.
Proof.
  unfold image_in. apply Forall_forall. intros g G. unfold plane_in.
  destruct (Z_le_dec (g_base g + (g_rows g - 1) * g_stride g + g_row g + 0) (buf_len db (g_buf g))) as [E|E]; [exact E|exfalso].
  destruct (geom_facts dst g (or_intror eq_refl) Vd G) as (G1 & G2 & G3 & G4).
  pose proof (plane_buf dst w h db g Vd (proj1 Ed) G) as Gb.
  destruct (In_nth_error _ _ G) as (p & Gp).
  set (f := fun _ : nat => 0). set (src2 := filled L f sb).
  set (e := expected A src dst w h src2 p (g_rows g - 1) (g_row g - 1)).
  set (u := fun _ : nat => if e =? 0 then 1 else 0).
  destruct (filled_run f u ltac:(intros; unfold f; lia) ltac:(intros; unfold u; destruct (_ =? _); lia)) as (a2 & (C1 & C2 & _) & C3).
  specialize (C2 p g Gp (g_rows g - 1) (g_row g - 1) ltac:(lia) ltac:(lia)). fold src2 e in C2.
  unfold sample in C2. rewrite C3 in C2. rewrite pads_nth in C2 by exact Gb.
  assert (Hlen : length (nth (g_buf g) after []) = length (nth (g_buf g) db [])).
  { assert (Q : length (nth (g_buf g) a2 []) = length (nth (g_buf g) (filled L u db) [])).
    { transitivity (nth (g_buf g) (map (@length Z) a2) 0%nat); [change 0%nat with (length (@nil Z)) at 1; symmetry; apply map_nth|].
      rewrite C1. change 0%nat with (length (@nil Z)) at 1. apply map_nth. }
    rewrite C3, filled_nth, pads_nth, !app_length in Q by exact Gb. lia. }
  assert (0 <= (g_rows g - 1) * g_stride g) by (apply Z.mul_nonneg_nonneg; lia).
  pose proof Xd as X. unfold extent_below in X. rewrite Forall_forall in X. specialize (X g G). cbv beta in X.
  unfold buf_len in *.
  rewrite app_nth2 in C2 by lia. rewrite nth_repeat_lt in C2 by lia. unfold u in C2.
  destruct (Z.eqb_spec e 0); lia.
Qed.

(** *** The source *)
(** Source buffers filled in two ways give the same result. *)
Lemma two_runs f1 f2 : (forall n, 0 <= f1 n <= 255) -> (forall n, 0 <= f2 n <= 255) ->
  exists a1 a2 d, converted A src dst w h (filled L f1 sb) d a1 /\ converted A src dst w h (filled L f2 sb) d a2 /\
    forall g y j, sample a1 g y j = sample a2 g y j.
Proof.
  intros H1 H2. set (u := fun _ : nat => 0). assert (Hu : forall n, 0 <= u n <= 255) by (intros; unfold u; lia).
  destruct (filled_run f1 u H1 Hu) as (a1 & C1 & E1). destruct (filled_run f2 u H2 Hu) as (a2 & C2 & E2).
  exists a1, a2, (filled L u db). repeat split; try apply C1; try apply C2.
  intros g y j. unfold sample. rewrite E1, E2. reflexivity.
Qed.

(** Byte [j] of row [y] of a plane in the two cases; [n] is the buffer where they differ, [v] the
    other filling. *)
Definition two (n : nat) (v : Z) : (nat -> Z) * (nat -> Z) := (fun _ => 0, fun k => if Nat.eqb k n then v else 0).

Lemma two_samples n v g y j : In g (image_planes src w h) -> 0 <= v -> 0 <= y < g_rows g -> 0 <= j < g_row g ->
  let s1 := sample (filled L (fst (two n v)) sb) g y j in
  let s2 := sample (filled L (snd (two n v)) sb) g y j in
  s1 <= s2 /\ (g_buf g <> n -> s1 = s2) /\
  (g_buf g = n -> buf_len sb n <= g_base g + y * g_stride g + j -> s1 = 0 /\ s2 = v).
Proof.
  intros G V Hy Hj. pose proof (plane_buf src w h sb g Vs (proj1 Es) G) as Gb.
  destruct (geom_facts src g (or_introl eq_refl) Vs G) as (G1 & G2 & G3 & G4).
  pose proof Xs as X. unfold extent_below in X. rewrite Forall_forall in X. specialize (X g G). cbv beta in X.
  assert (0 <= y * g_stride g) by (apply Z.mul_nonneg_nonneg; lia).
  assert (y * g_stride g <= (g_rows g - 1) * g_stride g) by (apply Z.mul_le_mono_nonneg_r; lia).
  cbv zeta. rewrite !filled_sample by (try exact Gb; lia).
  unfold two. cbn [fst snd].
  destruct (Z.ltb_spec (g_base g + y * g_stride g + j) (buf_len sb (g_buf g))).
  - split; [lia|]. split; [reflexivity|]. intros <- Q. lia.
  - destruct (Nat.eqb_spec (g_buf g) n) as [E|E]; (split; [lia|]; split; [|intros Q1 Q2; split]; intros; congruence).
Qed.

Lemma two_bytes n v : 0 <= v <= 255 -> (forall k, 0 <= fst (two n v) k <= 255) /\ (forall k, 0 <= snd (two n v) k <= 255).
Proof. intros V. unfold two. cbn [fst snd]. split; intros k; [lia|]. destruct (Nat.eqb k n); lia. Qed.

(** What the two results have in common. *)
Lemma two_pixels n v : 0 <= v <= 255 ->
  let s1 := filled L (fst (two n v)) sb in
  let s2 := filled L (snd (two n v)) sb in
  (is_rgb (i_pf src) = true -> is_rgb (i_pf dst) = true ->
     pixel src w h s1 (w - 1) (h - 1) = pixel src w h s2 (w - 1) (h - 1)) /\
  (is_rgb (i_pf src) = true -> is_rgb (i_pf dst) = false ->
     luma (i_cs dst) (pixel src w h s1 (w - 1) (h - 1)) = luma (i_cs dst) (pixel src w h s2 (w - 1) (h - 1))) /\
  (is_rgb (i_pf src) = false -> is_rgb (i_pf dst) = true -> exists wrap : bool,
     let conv p := let '(l, cb, cr) := p in (if wrap then ycc_to_rgb_wrap else ycc_to_rgb) (i_cs src) l cb cr in
     conv (pixel src w h s1 (w - 1) (h - 1)) = conv (pixel src w h s2 (w - 1) (h - 1))).
Proof.
  intros V s1 s2. destruct (two_bytes n v V) as [F1 F2].
  destruct (two_runs (fst (two n v)) (snd (two n v)) F1 F2) as (a1 & a2 & d & C1 & C2 & E). fold s1 s2 in C1, C2.
  assert (Px : is_rgb (i_pf dst) = true -> pixel dst w h a1 (w - 1) (h - 1) = pixel dst w h a2 (w - 1) (h - 1)).
  { intros R. unfold pixel, rgb_pixel. rewrite R. destruct (component_offsets _) as [[o1 o2] o3]. rewrite !E. reflexivity. }
  split; [|split].
  - intros K1 K2. specialize (Px K2).
    rewrite (result_pixel _ src dst w h s1 d a1 C1), (result_pixel _ src dst w h s2 d a2 C2) in Px by (auto; lia).
    unfold source_rgb in Px. unfold pixel. rewrite K1 in *. exact Px.
  - intros K1 K2.
    rewrite <- (Aluma (w - 1)), <- (result_luma _ src dst w h s1 d a1 C1), <- (result_luma _ src dst w h s2 d a2 C2) by (auto; lia).
    apply E.
  - intros K1 K2. specialize (Px K2). destruct (Argb K1 (w - 1) ltac:(lia)) as (wrap & Ew). exists wrap. cbv zeta.
    rewrite (result_pixel _ src dst w h s1 d a1 C1), (result_pixel _ src dst w h s2 d a2 C2) in Px by (auto; lia).
    unfold source_rgb in Px. unfold pixel. rewrite K1 in *. rewrite Ew in Px. exact Px.
Qed.

Lemma src_cs : is_rgb (i_pf src) = false -> i_cs src <> CsRgb.
Proof. intros R E. destruct Vs as (V & _). apply V in E. congruence. Qed.
Lemma dst_cs : is_rgb (i_pf dst) = false -> i_cs dst <> CsRgb.
Proof. intros R E. destruct Vd as (V & _). apply V in E. congruence. Qed.

Lemma filled_byte f g y j : (forall n, 0 <= f n <= 255) -> 0 <= sample (filled L f sb) g y j <= 255.
Proof. intros F. apply sample_byte with (lim := L). apply filled_ok; auto. Qed.

(** A plane that is not inside, and the byte that is missing. *)
Lemma packed_src_inside : is_rgb (i_pf src) = true -> colors_in src w h sb.
Proof.
  intros K. set (d := bytes_per_pixel (i_pf src)).
  set (g := Geom 0 0 (eff_stride (i_strides src) 0 (d * w)) h (d * w)).
  assert (P : image_planes src w h = [g]) by (unfold image_planes, g, d; destruct (i_pf src); try discriminate; reflexivity).
  assert (G : In g (image_planes src w h)) by (rewrite P; left; reflexivity).
  unfold colors_in, image_in. rewrite P. constructor; [|constructor].
  unfold plane_in.
  match goal with |- ?a <= ?b => destruct (Z_le_dec a b) as [E|E]; [exact E|exfalso] end.
  destruct (two_pixels 0 255 ltac:(lia)) as (T1 & T2 & _).
  destruct (geom_facts src g (or_introl eq_refl) Vs G) as (G1 & G2 & G3 & G4).
  assert (S : forall j, 0 <= j < d ->
    let s1 := sample (filled L (fst (two 0 255)) sb) g (h - 1) (d * (w - 1) + j) in
    let s2 := sample (filled L (snd (two 0 255)) sb) g (h - 1) (d * (w - 1) + j) in
    s1 <= s2 /\ (buf_len sb 0 <= (h - 1) * g_stride g + (d * (w - 1) + j) -> s1 = 0 /\ s2 = 255)).
  { intros j Hj. destruct (two_samples 0 255 g (h - 1) (d * (w - 1) + j) G ltac:(lia)) as (S1 & _ & S3).
    - unfold g. cbn [g_rows]. lia.
    - unfold g. cbn [g_row]. assert (0 <= d * (w - 1)) by (apply Z.mul_nonneg_nonneg; lia). lia.
    - cbv zeta. split; [exact S1|]. intros Q. apply S3; [reflexivity|]. unfold g at 1. cbn [g_base]. lia. }
  unfold pixel, rgb_pixel in T1, T2. rewrite K, P in T1, T2. cbn [nth_plane nth] in T1, T2. fold d in T1, T2.
  change (~ 0 + (h - 1) * g_stride g + d * w + match i_pf src with Bgra => -1 | _ => 0 end <= buf_len sb 0) in E.
  set (c := (h - 1) * g_stride g) in *. clearbody c. set (len := buf_len sb 0) in *. clearbody len. clearbody g.
  assert (Kc : is_rgb (i_pf dst) = false -> i_cs dst <> CsRgb) by apply dst_cs.
  clear - E S T1 T2 Kc K Hsup W0. subst d.
  destruct (is_rgb (i_pf dst)) eqn:Kd.
  - specialize (T1 eq_refl eq_refl). clear T2.
    destruct (i_pf src); try discriminate K; cbn [component_offsets bytes_per_pixel] in *;
      pose proof (S 0 ltac:(lia)) as [_ Q0]; pose proof (S 2 ltac:(lia)) as [_ Q2]; try (pose proof (S 3 ltac:(lia)) as [_ Q3]);
      apply pair_equal_spec in T1; destruct T1 as [T1 X3]; apply pair_equal_spec in T1; destruct T1 as [X1 X2]; try lia; destruct (i_pf dst); first [discriminate Hsup|discriminate Kd].
  - specialize (T2 eq_refl eq_refl). specialize (Kc eq_refl). revert T2. apply Z.lt_neq.
    destruct (i_pf src); try discriminate K; cbn [component_offsets bytes_per_pixel] in *;
      pose proof (S 0 ltac:(lia)) as [Q0 P0]; pose proof (S 1 ltac:(lia)) as [Q1 P1]; pose proof (S 2 ltac:(lia)) as [Q2 P2];
      try (pose proof (S 3 ltac:(lia)) as [Q3 P3]);
      try (exfalso; destruct (i_pf dst); first [discriminate Hsup|discriminate Kd]); apply luma_grows; auto; lia.
Qed.

Lemma last_even : w mod 2 = 0 -> 2 * ((w - 1) / 2) + 1 = w - 1 /\ (w - 1) / 2 = w / 2 - 1.
Proof. lia. Qed.

Ltac F := repeat match goal with
  | H : g_buf ?g = _ |- _ => rewrite H in *; clear H
  | H : g_base ?g = _ |- _ => rewrite H in *; clear H
  | H : g_rows ?g = _ |- _ => rewrite H in *; clear H
  | H : g_row ?g = _ |- _ => rewrite H in *; clear H
  end.
Lemma planar_src_inside : is_rgb (i_pf src) = false -> image_in 0 src w h sb.
Proof.
  intros K. pose proof (src_cs K) as Kc.
  assert (Kd : is_rgb (i_pf dst) = true) by (destruct (i_pf src), (i_pf dst); try discriminate K; try discriminate Hsup; reflexivity).
  assert (D : forall n v, 0 <= v <= 255 -> exists wrap : bool,
    let conv p := let '(l, cb, cr) := p in (if wrap then ycc_to_rgb_wrap else ycc_to_rgb) (i_cs src) l cb cr in
    conv (pixel src w h (filled L (fst (two n v)) sb) (w - 1) (h - 1)) =
    conv (pixel src w h (filled L (snd (two n v)) sb) (w - 1) (h - 1))).
  { intros n v V. destruct (two_pixels n v V) as (_ & _ & X). exact (X K Kd). }
  assert (Ps : forall n v, 0 <= v <= 255 -> forall g y j, In g (image_planes src w h) -> 0 <= y < g_rows g -> 0 <= j < g_row g ->
    let s1 := sample (filled L (fst (two n v)) sb) g y j in
    let s2 := sample (filled L (snd (two n v)) sb) g y j in
    0 <= s1 <= 255 /\ 0 <= s2 <= 255 /\ (g_buf g <> n -> s1 = s2) /\
    (g_buf g = n -> buf_len sb n <= g_base g + y * g_stride g + j -> s1 = 0 /\ s2 = v)).
  { intros n v V g y j G Hy Hj. destruct (two_samples n v g y j G ltac:(lia) Hy Hj) as (_ & S2 & S3).
    destruct (two_bytes n v V) as [F1 F2]. cbv zeta. split; [apply filled_byte; auto|]. split; [apply filled_byte; auto|]. auto. }
  unfold image_in. apply Forall_forall. intros g G. unfold plane_in.
  match goal with |- ?a <= ?b => destruct (Z_le_dec a b) as [E|E]; [exact E|exfalso] end.
  unfold pixel in D. rewrite K in D.
  (* from the two samples of each component *)
  assert (Luma : forall (wrap : bool) l1 l2 b1 b2 r1 r2, l1 = 0 -> l2 = 255 -> r1 = r2 -> 0 <= r1 <= 255 ->
    (if wrap then ycc_to_rgb_wrap else ycc_to_rgb) (i_cs src) l1 b1 r1 <>
    (if wrap then ycc_to_rgb_wrap else ycc_to_rgb) (i_cs src) l2 b2 r2).
  { intros wrap l1 l2 b1 b2 r1 r2 -> -> <- R Q. apply (f_equal the_red) in Q. rewrite !the_red_any in Q by lia.
    exact (red_by_luma _ _ Kc R Q). }
  assert (Red : forall (wrap : bool) l1 l2 b1 b2 r1 r2, 0 <= l1 <= 255 -> 0 <= l2 <= 255 -> r1 = 0 -> r2 = 255 ->
    (if wrap then ycc_to_rgb_wrap else ycc_to_rgb) (i_cs src) l1 b1 r1 <>
    (if wrap then ycc_to_rgb_wrap else ycc_to_rgb) (i_cs src) l2 b2 r2).
  { intros wrap l1 l2 b1 b2 r1 r2 R1 R2 -> -> Q. apply (f_equal the_red) in Q. rewrite !the_red_any in Q by lia.
    exact (red_by_chroma _ _ _ Kc R1 R2 Q). }
  assert (Blue : forall (wrap : bool) l1 l2 b1 b2 r1 r2, l1 = l2 -> 0 <= l1 <= 255 -> b1 = 0 -> b2 = 200 ->
    (if wrap then ycc_to_rgb_wrap else ycc_to_rgb) (i_cs src) l1 b1 r1 <>
    (if wrap then ycc_to_rgb_wrap else ycc_to_rgb) (i_cs src) l2 b2 r2).
  { intros wrap l1 l2 b1 b2 r1 r2 <- R -> -> Q. apply (f_equal the_blue) in Q. rewrite !the_blue_any in Q by lia.
    exact (blue_by_chroma _ _ Kc R Q). }
  destruct Vs as (_ & Vp & Vz).
  unfold ycc_pixel, nth_plane, image_planes, planes in *.
  destruct (i_pf src) eqn:Ep; try discriminate K; try discriminate Hsup; cbn [valid_num_planes valid_size nth In] in *.
  - (* I444 *)
    set (g0 := Geom 0 0 _ h w) in *. set (g1 := Geom 1 0 _ h w) in *. set (g2 := Geom 2 0 _ h w) in *.
    assert (F0 : g_buf g0 = 0%nat /\ g_base g0 = 0 /\ g_rows g0 = h /\ g_row g0 = w) by (repeat split).
    assert (F1 : g_buf g1 = 1%nat /\ g_base g1 = 0 /\ g_rows g1 = h /\ g_row g1 = w) by (repeat split).
    assert (F2 : g_buf g2 = 2%nat /\ g_base g2 = 0 /\ g_rows g2 = h /\ g_row g2 = w) by (repeat split).
    clearbody g0 g1 g2. destruct F0 as (F0a & F0b & F0c & F0d), F1 as (F1a & F1b & F1c & F1d), F2 as (F2a & F2b & F2c & F2d).
    destruct G as [<- |[<- |[<- |[]]]].
    + destruct (D 0%nat 255 ltac:(lia)) as (wrap & Q). cbv zeta in Q. revert Q.
      destruct (Ps 0%nat 255 ltac:(lia) g0 (h - 1) (w - 1) ltac:(tauto) ltac:(F; lia) ltac:(F; lia)) as (I0 & J0 & M0 & N0).
      destruct (Ps 0%nat 255 ltac:(lia) g1 (h - 1) (w - 1) ltac:(tauto) ltac:(F; lia) ltac:(F; lia)) as (I1 & J1 & M1 & N1).
      destruct (Ps 0%nat 255 ltac:(lia) g2 (h - 1) (w - 1) ltac:(tauto) ltac:(F; lia) ltac:(F; lia)) as (I2 & J2 & M2 & N2).
      F; apply Luma; try (apply N0); try (apply M0); try (apply N1); try (apply M1); try (apply N2); try (apply M2); try assumption; try discriminate; lia.
    + destruct (D 1%nat 200 ltac:(lia)) as (wrap & Q). cbv zeta in Q. revert Q.
      destruct (Ps 1%nat 200 ltac:(lia) g0 (h - 1) (w - 1) ltac:(tauto) ltac:(F; lia) ltac:(F; lia)) as (I0 & J0 & M0 & N0).
      destruct (Ps 1%nat 200 ltac:(lia) g1 (h - 1) (w - 1) ltac:(tauto) ltac:(F; lia) ltac:(F; lia)) as (I1 & J1 & M1 & N1).
      destruct (Ps 1%nat 200 ltac:(lia) g2 (h - 1) (w - 1) ltac:(tauto) ltac:(F; lia) ltac:(F; lia)) as (I2 & J2 & M2 & N2).
      F; apply Blue; try (apply N0); try (apply M0); try (apply N1); try (apply M1); try (apply N2); try (apply M2); try assumption; try discriminate; lia.
    + destruct (D 2%nat 255 ltac:(lia)) as (wrap & Q). cbv zeta in Q. revert Q.
      destruct (Ps 2%nat 255 ltac:(lia) g0 (h - 1) (w - 1) ltac:(tauto) ltac:(F; lia) ltac:(F; lia)) as (I0 & J0 & M0 & N0).
      destruct (Ps 2%nat 255 ltac:(lia) g1 (h - 1) (w - 1) ltac:(tauto) ltac:(F; lia) ltac:(F; lia)) as (I1 & J1 & M1 & N1).
      destruct (Ps 2%nat 255 ltac:(lia) g2 (h - 1) (w - 1) ltac:(tauto) ltac:(F; lia) ltac:(F; lia)) as (I2 & J2 & M2 & N2).
      F; apply Red; try (apply N0); try (apply M0); try (apply N1); try (apply M1); try (apply N2); try (apply M2); try assumption; try discriminate; lia.
  - (* I420 *)
    assert (Hx : (w - 1) / 2 = w / 2 - 1) by lia. assert (Hy : (h - 1) / 2 = h / 2 - 1) by lia. rewrite Hx, Hy in D.
    set (g0 := Geom 0 0 _ h w) in *. set (g1 := Geom 1 0 _ (h / 2) (w / 2)) in *. set (g2 := Geom 2 0 _ (h / 2) (w / 2)) in *.
    assert (F0 : g_buf g0 = 0%nat /\ g_base g0 = 0 /\ g_rows g0 = h /\ g_row g0 = w) by (repeat split).
    assert (F1 : g_buf g1 = 1%nat /\ g_base g1 = 0 /\ g_rows g1 = h / 2 /\ g_row g1 = w / 2) by (repeat split).
    assert (F2 : g_buf g2 = 2%nat /\ g_base g2 = 0 /\ g_rows g2 = h / 2 /\ g_row g2 = w / 2) by (repeat split).
    clearbody g0 g1 g2. destruct F0 as (F0a & F0b & F0c & F0d), F1 as (F1a & F1b & F1c & F1d), F2 as (F2a & F2b & F2c & F2d).
    destruct G as [<- |[<- |[<- |[]]]].
    + destruct (D 0%nat 255 ltac:(lia)) as (wrap & Q). cbv zeta in Q. revert Q.
      destruct (Ps 0%nat 255 ltac:(lia) g0 (h - 1) (w - 1) ltac:(tauto) ltac:(F; lia) ltac:(F; lia)) as (I0 & J0 & M0 & N0).
      destruct (Ps 0%nat 255 ltac:(lia) g1 (h / 2 - 1) (w / 2 - 1) ltac:(tauto) ltac:(F; lia) ltac:(F; lia)) as (I1 & J1 & M1 & N1).
      destruct (Ps 0%nat 255 ltac:(lia) g2 (h / 2 - 1) (w / 2 - 1) ltac:(tauto) ltac:(F; lia) ltac:(F; lia)) as (I2 & J2 & M2 & N2).
      F; apply Luma; try (apply N0); try (apply M0); try (apply N1); try (apply M1); try (apply N2); try (apply M2); try assumption; try discriminate; lia.
    + destruct (D 1%nat 200 ltac:(lia)) as (wrap & Q). cbv zeta in Q. revert Q.
      destruct (Ps 1%nat 200 ltac:(lia) g0 (h - 1) (w - 1) ltac:(tauto) ltac:(F; lia) ltac:(F; lia)) as (I0 & J0 & M0 & N0).
      destruct (Ps 1%nat 200 ltac:(lia) g1 (h / 2 - 1) (w / 2 - 1) ltac:(tauto) ltac:(F; lia) ltac:(F; lia)) as (I1 & J1 & M1 & N1).
      destruct (Ps 1%nat 200 ltac:(lia) g2 (h / 2 - 1) (w / 2 - 1) ltac:(tauto) ltac:(F; lia) ltac:(F; lia)) as (I2 & J2 & M2 & N2).
      F; apply Blue; try (apply N0); try (apply M0); try (apply N1); try (apply M1); try (apply N2); try (apply M2); try assumption; try discriminate; lia.
    + destruct (D 2%nat 255 ltac:(lia)) as (wrap & Q). cbv zeta in Q. revert Q.
      destruct (Ps 2%nat 255 ltac:(lia) g0 (h - 1) (w - 1) ltac:(tauto) ltac:(F; lia) ltac:(F; lia)) as (I0 & J0 & M0 & N0).
      destruct (Ps 2%nat 255 ltac:(lia) g1 (h / 2 - 1) (w / 2 - 1) ltac:(tauto) ltac:(F; lia) ltac:(F; lia)) as (I1 & J1 & M1 & N1).
      destruct (Ps 2%nat 255 ltac:(lia) g2 (h / 2 - 1) (w / 2 - 1) ltac:(tauto) ltac:(F; lia) ltac:(F; lia)) as (I2 & J2 & M2 & N2).
      F; apply Red; try (apply N0); try (apply M0); try (apply N1); try (apply M1); try (apply N2); try (apply M2); try assumption; try discriminate; lia.
  - (* NV12 *)
    assert (Hx : 2 * ((w - 1) / 2) = w - 2) by lia. assert (Hx' : w - 2 + 1 = w - 1) by lia.
    assert (Hy : (h - 1) / 2 = h / 2 - 1) by lia. rewrite Hx, Hx', Hy in D.
    set (g0 := Geom 0 0 _ h w) in *.
    assert (F0 : g_buf g0 = 0%nat /\ g_base g0 = 0 /\ g_rows g0 = h /\ g_row g0 = w) by (repeat split).
    destruct (Z.eqb_spec (i_planes src) 1) as [P1|P1]; cbn [nth In] in *.
    * set (g1 := Geom 0 _ _ (h / 2) w) in *.
      assert (F1 : g_buf g1 = 0%nat /\ g_base g1 = g_stride g0 * h /\ g_stride g1 = g_stride g0 /\ g_rows g1 = h / 2 /\ g_row g1 = w) by (repeat split).
      assert (S0 : 0 <= g_stride g0) by (apply (Hstr src 0%nat w (or_introl eq_refl)); lia).
      clearbody g0 g1. destruct F0 as (F0a & F0b & F0c & F0d), F1 as (F1a & F1b & F1s & F1c & F1d).
      assert (E' : ~ g_base g1 + (h / 2 - 1) * g_stride g1 + w + 0 <= buf_len sb 0).
      { destruct G as [<- |[<- |[]]]; F; [|exact E].
        assert (0 <= (h / 2 - 1) * g_stride g0) by (apply Z.mul_nonneg_nonneg; lia). lia. }
      clear E G g. pose proof E' as E.
      destruct (D 0%nat 255 ltac:(lia)) as (wrap & Q). cbv zeta in Q. revert Q.
      destruct (Ps 0%nat 255 ltac:(lia) g0 (h - 1) (w - 1) ltac:(tauto) ltac:(F; lia) ltac:(F; lia)) as (I0 & J0 & M0 & N0).
      destruct (Ps 0%nat 255 ltac:(lia) g1 (h / 2 - 1) (w - 2) ltac:(tauto) ltac:(F; lia) ltac:(F; lia)) as (I1 & J1 & M1 & N1).
      destruct (Ps 0%nat 255 ltac:(lia) g1 (h / 2 - 1) (w - 1) ltac:(tauto) ltac:(F; lia) ltac:(F; lia)) as (I2 & J2 & M2 & N2).
      F; apply Red; try (apply N0); try (apply M0); try (apply N1); try (apply M1); try (apply N2); try (apply M2); try assumption; try discriminate; lia.
    * assert (P2 : i_planes src = 2) by lia. set (g1 := Geom 1 _ _ (h / 2) w) in *.
      assert (F1 : g_buf g1 = 1%nat /\ g_base g1 = 0 /\ g_rows g1 = h / 2 /\ g_row g1 = w) by (repeat split).
      clearbody g0 g1. destruct F0 as (F0a & F0b & F0c & F0d), F1 as (F1a & F1b & F1c & F1d).
      destruct G as [<- |[<- |[]]].
      + destruct (D 0%nat 255 ltac:(lia)) as (wrap & Q). cbv zeta in Q. revert Q.
      destruct (Ps 0%nat 255 ltac:(lia) g0 (h - 1) (w - 1) ltac:(tauto) ltac:(F; lia) ltac:(F; lia)) as (I0 & J0 & M0 & N0).
      destruct (Ps 0%nat 255 ltac:(lia) g1 (h / 2 - 1) (w - 2) ltac:(tauto) ltac:(F; lia) ltac:(F; lia)) as (I1 & J1 & M1 & N1).
      destruct (Ps 0%nat 255 ltac:(lia) g1 (h / 2 - 1) (w - 1) ltac:(tauto) ltac:(F; lia) ltac:(F; lia)) as (I2 & J2 & M2 & N2).
      F; apply Luma; try (apply N0); try (apply M0); try (apply N1); try (apply M1); try (apply N2); try (apply M2); try assumption; try discriminate; lia.
      + destruct (D 1%nat 255 ltac:(lia)) as (wrap & Q). cbv zeta in Q. revert Q.
      destruct (Ps 1%nat 255 ltac:(lia) g0 (h - 1) (w - 1) ltac:(tauto) ltac:(F; lia) ltac:(F; lia)) as (I0 & J0 & M0 & N0).
      destruct (Ps 1%nat 255 ltac:(lia) g1 (h / 2 - 1) (w - 2) ltac:(tauto) ltac:(F; lia) ltac:(F; lia)) as (I1 & J1 & M1 & N1).
      destruct (Ps 1%nat 255 ltac:(lia) g1 (h / 2 - 1) (w - 1) ltac:(tauto) ltac:(F; lia) ltac:(F; lia)) as (I2 & J2 & M2 & N2).
      F; apply Red; try (apply N0); try (apply M0); try (apply N1); try (apply M1); try (apply N2); try (apply M2); try assumption; try discriminate; lia.
Qed.
End Reach.
