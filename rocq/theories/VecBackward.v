(** Kernels that convert YCbCr to RGB in groups of pixels: the loops of sse2.rs and avx2.rs,
    for any functions on registers that load the samples of one group, move lanes and
    store the pixels of one group.  A group has [hw] pixels. *)
From Coq Require Import ZArith List Bool Lia ZifyBool ZifyNat.
Import ListNotations.
From Verif Require Import Base Exec Area Fmt Common Scalar Wrappers Simd Vector Spec SimdSpec PixelFacts
  KernelBase ForwardProofs BackwardProofs SimdFacts VecForward X86Forward.
Open Scope Z_scope.

(** ** Registers *)

(** Samples in the high byte of 16-bit lanes. *)
Definition be (hw : nat) (f : Z -> Z) : reg := b16 (map (fun k => 256 * f k) (zseq 0 hw)).
(** 16-bit lanes. *)
Definition lanes (hw : nat) (F : Z -> Z) : reg := b16 (map F (zseq 0 hw)).

Lemma to_bytes2_high a : is_byte a -> to_bytes 2 (256 * a) = [0; a].
Proof.
  intros H. unfold is_byte in H. cbn [to_bytes]. rewrite Z.mul_comm, Z.div_mul, Z.mod_mul by lia.
  rewrite Z.mod_small by lia. reflexivity.
Qed.

Lemma be_bytes hw f : all_bytes f -> be hw f = flat_map (fun k => [0; f k]) (zseq 0 hw).
Proof.
  intros H. unfold be, b16. rewrite flat_map_map. apply flat_map_ext'. intros k _.
  apply to_bytes2_high. apply H.
Qed.

Lemma set1_16 hw a F : (forall k, F k mod 65536 = a mod 65536) -> set1_epi16 hw a = lanes hw F.
Proof.
  intros H. unfold set1_epi16, lanes.
  transitivity (b16 (map (fun _ => a) (zseq 0 hw))); [|apply b16_ext; auto].
  f_equal. rewrite <- (zseq_length 0 hw) at 1. generalize (zseq 0 hw) as l.
  induction l; cbn [length repeat map]; [auto|f_equal; auto].
Qed.

Lemma bw_mod c :
  bw c 0 mod 65536 = XXYM c /\ bw c 1 mod 65536 = RCRM c /\ bw c 2 mod 65536 = GCRM c /\
  bw c 3 mod 65536 = GCBM c /\ bw c 4 mod 65536 = BCBM c /\
  bw c 5 mod 65536 = RN c /\ bw c 6 mod 65536 = GP c /\ bw c 7 mod 65536 = BN c.
Proof. destruct c; repeat split; reflexivity. Qed.

Lemma set1_bw hw c i v : bw c i mod 65536 = v -> set1_epi16 hw (bw c i) = lanes hw (fun _ => v).
Proof. intros H. apply set1_16. intros _. rewrite <- H, Z.mod_mod; lia. Qed.

Lemma mulhi_be hw f v : all_bytes f -> 0 <= v <= 65535 ->
  mulhi_epu16 (be hw f) (lanes hw (fun _ => v)) = lanes hw (fun k => f k * v / 256).
Proof.
  intros H Hv. unfold be, lanes. rewrite mulhi_map.
  - f_equal. apply map_ext. intros k. change 65536 with (256 * 256).
    replace (256 * f k * v) with (f k * v * 256) by ring. rewrite Z.div_mul_cancel_r by lia. auto.
  - intros k _. pose proof (H k) as B. unfold is_byte in B. lia.
Qed.

Lemma lanes_ext hw F G : (forall k, F k = G k) -> lanes hw F = lanes hw G.
Proof. intros H. unfold lanes. f_equal. apply map_ext. auto. Qed.

(** The chroma terms: the same text in sse2.rs and avx2.rs. *)
Definition chroma_g (hw : nat) (c : colorimetry) (cb cr : reg) : reg * reg * reg :=
  (sub_epi16 (mulhi_epu16 cr (set1_epi16 hw (bw c 1))) (set1_epi16 hw (bw c 5)),
   sub_epi16 (set1_epi16 hw (bw c 6))
     (add_epi16 (mulhi_epu16 cb (set1_epi16 hw (bw c 3))) (mulhi_epu16 cr (set1_epi16 hw (bw c 2)))),
   sub_epi16 (mulhi_epu16 cb (set1_epi16 hw (bw c 4))) (set1_epi16 hw (bw c 7))).

Lemma chroma_g_lanes hw c fb fr : all_bytes fb -> all_bytes fr ->
  chroma_g hw c (be hw fb) (be hw fr)
  = (lanes hw (fun k => fst3 (chroma_terms c (fb k) (fr k))),
     lanes hw (fun k => snd3 (chroma_terms c (fb k) (fr k))),
     lanes hw (fun k => thd3 (chroma_terms c (fb k) (fr k)))).
Proof.
  intros Hb Hr. unfold chroma_g.
  destruct (bw_mod c) as (_ & E1 & E2 & E3 & E4 & E5 & E6 & E7).
  destruct (bwd_coef_range c) as (_ & R1 & R2 & R3 & R4 & _).
  rewrite !(set1_bw hw c _ _ E1), !(set1_bw hw c _ _ E2), !(set1_bw hw c _ _ E3), !(set1_bw hw c _ _ E4),
    !(set1_bw hw c _ _ E5), !(set1_bw hw c _ _ E6), !(set1_bw hw c _ _ E7).
  rewrite !mulhi_be by auto. unfold lanes. rewrite add16_map, !sub16_map.
  apply f_equal2; [apply f_equal2|]; apply f_equal; apply map_ext; intros k; unfold chroma_terms, fst3, snd3, thd3; lia.
Qed.

(** ** One group of pixels *)
Definition c8 (x : Z) : Z := sat 0 255 (i16 x).

Definition pixels_g (px : slice -> Z -> reg -> reg -> reg -> M unit)
           (dst : slice) (o : Z) (sr sg sb y : reg) : M unit :=
  px dst o (srai_epi16 (add_epi16 sr y) FIX6) (srai_epi16 (add_epi16 sg y) FIX6)
     (srai_epi16 (add_epi16 sb y) FIX6).

(** [px] stores the pixels of a group given by 16-bit lanes. *)
Definition group_area pf (hw : nat) (col : Z -> rgb) n b : area :=
  let d := bytes_per_pixel pf in
  Area n b 0 1 (d * Z.of_nat hw) (fun _ j => pixel_byte pf (col (j / d)) (j mod d)).
Definition store_ok T ms dl (px : slice -> Z -> reg -> reg -> reg -> M unit) pf (hw : nat) : Prop :=
  forall dst n o R G B, dst_ok T ms dl dst n ->
  0 <= o -> o + bytes_per_pixel pf * Z.of_nat hw <= cap ms dl dst ->
  runs T ms dl (px dst o (lanes hw R) (lanes hw G) (lanes hw B))
    (in_area (group_area pf hw (fun k => (c8 (R k), c8 (G k), c8 (B k))) n (s_off dst + o))) tt.

Lemma c8_shift x : c8 (i16 x / 2 ^ FIX6) = clamp255 (wrap16 x / 64).
Proof.
  change (2 ^ FIX6) with 64. change (i16 x) with (wrap16 x).
  assert (H : -32768 <= wrap16 x < 32768).
  { unfold wrap16. pose proof (Z.mod_pos_bound (x + 32768) 65536). lia. }
  set (y := wrap16 x) in *. clearbody y.
  assert (-512 <= y / 64 < 512).
  { split; [apply Z.div_le_lower_bound; lia|apply Z.div_lt_upper_bound; lia]. }
  unfold c8. rewrite i16_small by lia. unfold sat, clamp255.
  destruct (Z.ltb_spec (y / 64) 0), (Z.ltb_spec 255 (y / 64)); lia.
Qed.

Lemma wrap_terms c l cb cr :
  (c8 (i16 (fst3 (chroma_terms c cb cr) + l * XXYM c / 256) / 2 ^ FIX6),
   c8 (i16 (snd3 (chroma_terms c cb cr) + l * XXYM c / 256) / 2 ^ FIX6),
   c8 (i16 (thd3 (chroma_terms c cb cr) + l * XXYM c / 256) / 2 ^ FIX6))
  = ycc_to_rgb_wrap (cs_of c) l cb cr.
Proof.
  rewrite !c8_shift. unfold chroma_terms, fst3, snd3, thd3, ycc_to_rgb_wrap, rgb64.
  destruct c; cbn [cs_of rgb_coefs XXYM RCRM RN GCBM GCRM GP BCBM BN];
    (apply f_equal2; [apply f_equal2|]); apply f_equal; apply (f_equal (fun x => wrap16 x / 64)); lia.
Qed.

Section Vec.
Variable T : target.
Variable ms : list (list Z).
Variable dl : list nat.
Hypothesis HB : bytes_ok ms.

Notation exec := (exec T ms dl).
Notation runs := (runs T ms dl).
Notation fits := (fits ms dl).
Notation src_ok := (src_ok T ms dl).
Notation dst_ok := (dst_ok T ms dl).

Lemma runs_pixels px pf hw c dst n o fl fb fr :
  store_ok T ms dl px pf hw -> dst_ok dst n -> 0 <= o -> o + bytes_per_pixel pf * Z.of_nat hw <= cap ms dl dst ->
  all_bytes fl ->
  runs (pixels_g px dst o (lanes hw (fun k => fst3 (chroma_terms c (fb k) (fr k))))
          (lanes hw (fun k => snd3 (chroma_terms c (fb k) (fr k))))
          (lanes hw (fun k => thd3 (chroma_terms c (fb k) (fr k))))
          (mulhi_epu16 (be hw fl) (set1_epi16 hw (bw c 0))))
    (in_area (group_area pf hw (fun k => ycc_to_rgb_wrap (cs_of c) (fl k) (fb k) (fr k)) n (s_off dst + o))) tt.
Proof.
  intros Hpx Hd Ho Hlen Hl. unfold pixels_g.
  destruct (bw_mod c) as (E0 & _). destruct (bwd_coef_range c) as (R0 & _).
  rewrite (set1_bw hw c _ _ E0), mulhi_be by auto.
  unfold lanes. rewrite !add16_map, !srai16_map.
  eapply runs_iff; [apply (Hpx dst n); auto|].
  intros w. unfold group_area. apply area_ext. intros y j _ Hj. rewrite wrap_terms. auto.
Qed.

(** ** A tile of two rows and two groups *)
Definition vtile (hw : nat) px dd (dup : reg -> reg * reg) (lo hi : reg -> reg) (c : colorimetry)
           (ybuf : slice) (ys : Z) (dst : slice) (ds x y : Z) (cb cr : reg) : M unit :=
  let '(sr, sg, sb) := chroma_g hw c cb cr in
  let '(sb_lo, sb_hi) := dup sb in
  let '(sr_lo, sr_hi) := dup sr in
  let '(sg_lo, sg_hi) := dup sg in
  let xxym := set1_epi16 hw (bw c 0) in
  i0 <- wg_index x (2 * y) (2 * Z.of_nat hw) ys ;;
  y0 <- ldn ybuf i0 (2 * hw) ;;
  let y00 := mulhi_epu16 (lo y0) xxym in
  o00 <- wg_index (2 * x) (2 * y) dd ds ;;
  pixels_g px dst o00 sr_lo sg_lo sb_lo y00 ;;
  let y10 := mulhi_epu16 (hi y0) xxym in
  o10 <- wg_index (2 * x + 1) (2 * y) dd ds ;;
  pixels_g px dst o10 sr_hi sg_hi sb_hi y10 ;;
  i1 <- wg_index x (2 * y + 1) (2 * Z.of_nat hw) ys ;;
  y1 <- ldn ybuf i1 (2 * hw) ;;
  let y01 := mulhi_epu16 (lo y1) xxym in
  o01 <- wg_index (2 * x) (2 * y + 1) dd ds ;;
  pixels_g px dst o01 sr_lo sg_lo sb_lo y01 ;;
  let y11 := mulhi_epu16 (hi y1) xxym in
  o11 <- wg_index (2 * x + 1) (2 * y + 1) dd ds ;;
  pixels_g px dst o11 sr_hi sg_hi sb_hi y11.

Definition dup_ok (hw : nat) (dup : reg -> reg * reg) : Prop :=
  forall F, dup (lanes hw F) = (lanes hw (fun k => F (k / 2)), lanes hw (fun k => F ((Z.of_nat hw + k) / 2))).
Definition lo_ok (hw : nat) (lo : reg -> reg) : Prop :=
  forall f, all_bytes f -> lo (loaded (2 * hw) f) = be hw f.
Definition hi_ok (hw : nat) (hi : reg -> reg) : Prop :=
  forall f, all_bytes f -> hi (loaded (2 * hw) f) = be hw (fun k => f (Z.of_nat hw + k)).

(** Two rows of two groups. *)
Lemma tile_quad G n b s h w f y x F00 F10 F01 F11 wr : 0 < G ->
  (forall j, 0 <= j < G -> f (2 * y) (2 * x * G + j) = F00 j) ->
  (forall j, 0 <= j < G -> f (2 * y) ((2 * x + 1) * G + j) = F10 j) ->
  (forall j, 0 <= j < G -> f (2 * y + 1) (2 * x * G + j) = F01 j) ->
  (forall j, 0 <= j < G -> f (2 * y + 1) ((2 * x + 1) * G + j) = F11 j) ->
  in_area (tile 2 (2 * G) (Area n b s h w f) y x) wr <->
  in_area (Area n (b + (s * (2 * y) + 2 * x * G)) 0 1 G (fun _ j => F00 j)) wr \/
  in_area (Area n (b + (s * (2 * y) + (2 * x + 1) * G)) 0 1 G (fun _ j => F10 j)) wr \/
  in_area (Area n (b + (s * (2 * y + 1) + 2 * x * G)) 0 1 G (fun _ j => F01 j)) wr \/
  in_area (Area n (b + (s * (2 * y + 1) + (2 * x + 1) * G)) 0 1 G (fun _ j => F11 j)) wr.
Proof.
  intros HG H00 H10 H01 H11. unfold tile; cbn [a_buf a_base a_stride a_rows a_cols a_val].
  rewrite area_rows2. replace (2 * G) with (G + G) by lia.
  rewrite !area_cols by lia. rewrite or_assoc.
  apply or_iff; [|apply or_iff; [|apply or_iff]]; rewrite (area_row _ _ s 0);
    (apply area_ext'; try reflexivity; [lia|]); intros y' j Hy Hj.
  - rewrite <- H00 by lia. f_equal; lia.
  - rewrite <- H10 by lia. f_equal; lia.
  - rewrite <- H01 by lia. f_equal; lia.
  - rewrite <- H11 by lia. f_equal; lia.
Qed.

Lemma div_mul_add' d k j : 0 < d -> (d * k + j) / d = k + j / d.
Proof. intros H. rewrite Z.mul_comm, Z.div_add_l by lia. auto. Qed.
Lemma mod_mul_add' d k j : 0 < d -> (d * k + j) mod d = j mod d.
Proof. intros H. rewrite Z.mul_comm, Z.add_comm, Z.mod_add by lia. auto. Qed.

Lemma group_pos d hw j : 0 < d -> 0 <= j < d * hw -> 0 <= j / d < hw.
Proof. intros Hd Hj. split; [apply Z.div_pos; lia|apply Z.div_lt_upper_bound; lia]. Qed.

(** Byte [j] of group [g] of row [y] of a destination area. *)
Lemma group_val pf (col : Z -> Z -> rgb) (H g j y : Z) : 0 < bytes_per_pixel pf ->
  pixel_byte pf (col ((g * (bytes_per_pixel pf * H) + j) / bytes_per_pixel pf) y)
    ((g * (bytes_per_pixel pf * H) + j) mod bytes_per_pixel pf)
  = pixel_byte pf (col (g * H + j / bytes_per_pixel pf) y) (j mod bytes_per_pixel pf).
Proof.
  intros Hd. replace (g * (bytes_per_pixel pf * H) + j) with (bytes_per_pixel pf * (g * H) + j) by ring.
  rewrite div_mul_add', mod_mul_add' by auto. auto.
Qed.

Lemma runs_vtile hw px pf dup lo hi c ybuf ys dst n ds ch k x y fb fr col :
  (0 < hw)%nat -> 0 < bytes_per_pixel pf ->
  store_ok T ms dl px pf hw -> dup_ok hw dup -> lo_ok hw lo -> hi_ok hw hi ->
  src_ok ybuf -> dst_ok dst n ->
  fits ybuf ys (2 * ch) (2 * Z.of_nat hw * k) ->
  fits dst ds (2 * ch) (bytes_per_pixel pf * (2 * Z.of_nat hw * k)) ->
  0 <= y < ch -> 0 <= x < k -> all_bytes fb -> all_bytes fr ->
  (forall i j, 0 <= i < 2 -> 0 <= j < 2 * Z.of_nat hw ->
     col (2 * Z.of_nat hw * x + j) (2 * y + i)
     = ycc_to_rgb_wrap (cs_of c) (byte ms ybuf (ys * (2 * y + i) + (2 * Z.of_nat hw * x + j)))
                       (fb (j / 2)) (fr (j / 2))) ->
  runs (vtile hw px (bytes_per_pixel pf * Z.of_nat hw) dup lo hi c ybuf ys dst ds x y (be hw fb) (be hw fr))
    (in_area (tile 2 (2 * (bytes_per_pixel pf * Z.of_nat hw))
                (out_area pf col n dst ds (2 * ch) (2 * Z.of_nat hw * k)) y x)) tt.
Proof.
  intros Hhw Hdp Hpx Hdup Hlo Hhi Hs Hd Fy Fd Hy Hx Hb Hr Hcol.
  set (H := Z.of_nat hw) in *. assert (HH : 0 < H) by lia.
  set (d := bytes_per_pixel pf) in *.
  assert (HG : 0 < d * H) by nia.
  assert (Fd' : fits dst ds (2 * ch) (d * H * (2 * k))).
  { replace (d * H * (2 * k)) with (d * (2 * H * k)) by ring. auto. }
  assert (Ld : cap ms dl dst < usz T) by apply Hd.
  assert (Ly : cap ms dl ybuf < usz T) by apply Hs.
  destruct (wg_fit T ms dl ybuf ys (2 * ch) k (2 * H) x (2 * y)) as (D0 & P0 & Q0); auto; try lia.
  destruct (wg_fit T ms dl ybuf ys (2 * ch) k (2 * H) x (2 * y + 1)) as (D1 & P1 & Q1); auto; try lia.
  destruct (wg_fit T ms dl dst ds (2 * ch) (2 * k) (d * H) (2 * x) (2 * y)) as (E00 & P00 & Q00); auto; try lia.
  destruct (wg_fit T ms dl dst ds (2 * ch) (2 * k) (d * H) (2 * x + 1) (2 * y)) as (E10 & P10 & Q10); auto; try lia.
  destruct (wg_fit T ms dl dst ds (2 * ch) (2 * k) (d * H) (2 * x) (2 * y + 1)) as (E01 & P01 & Q01); auto; try lia.
  destruct (wg_fit T ms dl dst ds (2 * ch) (2 * k) (d * H) (2 * x + 1) (2 * y + 1)) as (E11 & P11 & Q11); auto; try lia.
  unfold vtile. rewrite chroma_g_lanes by auto.
  rewrite !Hdup. fold H. eapply runs_iff.
  - eapply runs_bind0; [exact D0|].
    eapply runs_bind0; [apply exec_load; auto; lia|].
    eapply runs_bind0; [exact E00|].
    rewrite Hlo, Hhi by (apply at_bytes; auto).
    eapply runs_bind; [eapply (runs_pixels px pf hw c dst n _ _ (fun k => fb (k / 2)) (fun k => fr (k / 2))); auto; apply at_bytes; auto|].
    eapply runs_bind0; [exact E10|].
    eapply runs_bind; [eapply (runs_pixels px pf hw c dst n _ _ (fun k => fb ((H + k) / 2)) (fun k => fr ((H + k) / 2))); auto; intros j; apply at_bytes; auto|].
    eapply runs_bind0; [exact D1|].
    eapply runs_bind0; [apply exec_load; auto; lia|].
    eapply runs_bind0; [exact E01|].
    rewrite Hlo, Hhi by (apply at_bytes; auto).
    eapply runs_bind; [eapply (runs_pixels px pf hw c dst n _ _ (fun k => fb (k / 2)) (fun k => fr (k / 2))); auto; apply at_bytes; auto|].
    eapply runs_bind0; [exact E11|].
    eapply (runs_pixels px pf hw c dst n _ _ (fun k => fb ((H + k) / 2)) (fun k => fr ((H + k) / 2))); auto; intros j; apply at_bytes; auto.
  - intros wr. unfold out_area. fold d.
    rewrite tile_quad; [|auto|intros j Hj; reflexivity|intros j Hj; reflexivity|intros j Hj; reflexivity|intros j Hj; reflexivity].
    unfold wunion, group_area. fold d H.
    apply or_iff; [|apply or_iff; [|apply or_iff]]; apply area_ext; intros y' j _ Hj;
      pose proof (group_pos d H j Hdp Hj) as Hj'; unfold d; rewrite group_val by auto; fold d; f_equal; unfold at_.
    + specialize (Hcol 0 (j / d)). rewrite Z.add_0_r in Hcol.
      replace (2 * x * H + j / d) with (2 * H * x + j / d) by ring. rewrite Hcol by lia. f_equal. f_equal. lia.
    + specialize (Hcol 0 (H + j / d)). rewrite Z.add_0_r in Hcol.
      replace ((2 * x + 1) * H + j / d) with (2 * H * x + (H + j / d)) by ring. rewrite Hcol by lia. f_equal. f_equal. lia.
    + specialize (Hcol 1 (j / d)).
      replace (2 * x * H + j / d) with (2 * H * x + j / d) by ring. rewrite Hcol by lia. f_equal. f_equal. lia.
    + specialize (Hcol 1 (H + j / d)).
      replace ((2 * x + 1) * H + j / d) with (2 * H * x + (H + j / d)) by ring. rewrite Hcol by lia. f_equal. f_equal. lia.
Qed.

End Vec.

(** ** What a vector kernel has to do *)
Definition v21_ok (T : target) (W : Z) (ar : arith) (pf : pixel_format) c (kv : kernel_2_1) : Prop :=
  forall ms dl, bytes_ok ms -> forall k cw ch w h ybuf ys uvbuf uvs dst n ds,
  w = W * k -> w = 2 * cw -> h = 2 * ch ->
  src_ok T ms dl ybuf -> src_ok T ms dl uvbuf -> dst_ok T ms dl dst n ->
  fits ms dl ybuf ys h w -> fits ms dl uvbuf uvs ch w -> fits ms dl dst ds h (bytes_per_pixel pf * w) ->
  runs T ms dl (kv w h (ys, uvs) (ybuf, uvbuf) ds dst)
    (in_areas [out_area pf (nv12_col ms (fun _ => ar) (cs_of c) ys uvs ybuf uvbuf) n dst ds h w]) tt.
Definition v420r_ok (T : target) (W : Z) (ar : arith) (pf : pixel_format) c (kv : kernel_3_1) : Prop :=
  forall ms dl, bytes_ok ms -> forall k cw ch w h ybuf ys ubuf us vbuf vs dst n ds,
  w = W * k -> w = 2 * cw -> h = 2 * ch ->
  src_ok T ms dl ybuf -> src_ok T ms dl ubuf -> src_ok T ms dl vbuf -> dst_ok T ms dl dst n ->
  fits ms dl ybuf ys h w -> fits ms dl ubuf us ch cw -> fits ms dl vbuf vs ch cw ->
  fits ms dl dst ds h (bytes_per_pixel pf * w) ->
  runs T ms dl (kv w h (ys, us, vs) (ybuf, ubuf, vbuf) ds dst)
    (in_areas [out_area pf (i420_col ms (fun _ => ar) (cs_of c) ys us vs ybuf ubuf vbuf) n dst ds h w]) tt.
Definition v444r_ok (T : target) (W : Z) (ar : arith) (pf : pixel_format) c (kv : kernel_3_1) : Prop :=
  forall ms dl, bytes_ok ms -> forall k w h ybuf ys ubuf us vbuf vs dst n ds,
  w = W * k ->
  src_ok T ms dl ybuf -> src_ok T ms dl ubuf -> src_ok T ms dl vbuf -> dst_ok T ms dl dst n ->
  fits ms dl ybuf ys h w -> fits ms dl ubuf us h w -> fits ms dl vbuf vs h w ->
  fits ms dl dst ds h (bytes_per_pixel pf * w) ->
  runs T ms dl (kv w h (ys, us, vs) (ybuf, ubuf, vbuf) ds dst)
    (in_areas [out_area pf (i444_col ms (fun _ => ar) (cs_of c) ys us vs ybuf ubuf vbuf) n dst ds h w]) tt.

(** ** The loops *)
Definition vk21 (hw : nat) px depth dup lo hi (ld2 : slice -> Z -> M (reg * reg)) c : kernel_2_1 :=
  fun width height src_strides src dst_stride dst =>
  let '(y_stride, uv_stride) := src_strides in
  let '(ybuf, uvbuf) := src in
  for_ (height / 2) (fun y => for_ (width / (2 * Z.of_nat hw)) (fun x =>
    i <- wg_index x y (2 * Z.of_nat hw) uv_stride ;;
    '(cb, cr) <- ld2 uvbuf i ;;
    vtile hw px (depth * Z.of_nat hw) dup lo hi c ybuf y_stride dst dst_stride x y cb cr)).
Definition vk420r (hw : nat) px depth dup lo hi (ld1 : slice -> Z -> M reg) c : kernel_3_1 :=
  fun width height src_strides src dst_stride dst =>
  let '(y_stride, u_stride, v_stride) := src_strides in
  let '(ybuf, ubuf, vbuf) := src in
  for_ (height / 2) (fun y => for_ (width / (2 * Z.of_nat hw)) (fun x =>
    iu <- wg_index x y (Z.of_nat hw) u_stride ;;
    cb <- ld1 ubuf iu ;;
    iv <- wg_index x y (Z.of_nat hw) v_stride ;;
    cr <- ld1 vbuf iv ;;
    vtile hw px (depth * Z.of_nat hw) dup lo hi c ybuf y_stride dst dst_stride x y cb cr)).
(** [ext]: a loaded group as the low half of a register; [lo] its lanes *)
Definition vk444r (hw : nat) px depth (ld : slice -> Z -> M reg) (lo : reg -> reg) c : kernel_3_1 :=
  fun width height src_strides src dst_stride dst =>
  let '(y_stride, u_stride, v_stride) := src_strides in
  let '(ybuf, ubuf, vbuf) := src in
  for_ height (fun y => for_ (width / Z.of_nat hw) (fun x =>
    iu <- wg_index x y (Z.of_nat hw) u_stride ;;
    cb <- ld ubuf iu ;;
    iv <- wg_index x y (Z.of_nat hw) v_stride ;;
    cr <- ld vbuf iv ;;
    iy <- wg_index x y (Z.of_nat hw) y_stride ;;
    y0 <- ld ybuf iy ;;
    let '(sr, sg, sb) := chroma_g hw c (lo cb) (lo cr) in
    o <- wg_index x y (depth * Z.of_nat hw) dst_stride ;;
    pixels_g px dst o sr sg sb (mulhi_epu16 (lo y0) (set1_epi16 hw (bw c 0))))).

Definition ld2_ok T ms dl (hw : nat) (ld2 : slice -> Z -> M (reg * reg)) : Prop :=
  forall s i, src_ok T ms dl s -> 0 <= i -> i + 2 * Z.of_nat hw <= cap ms dl s ->
  exec T ms dl (ld2 s i) []
    (be hw (fun k => at_ ms s i (2 * k)), be hw (fun k => at_ ms s i (2 * k + 1))).
Definition ld1_ok T ms dl (hw : nat) (ld1 : slice -> Z -> M reg) : Prop :=
  forall s i, src_ok T ms dl s -> 0 <= i -> i + Z.of_nat hw <= cap ms dl s ->
  exec T ms dl (ld1 s i) [] (be hw (at_ ms s i)).
Definition ldlo_ok T ms dl (hw : nat) (ld : slice -> Z -> M reg) (lo : reg -> reg) : Prop :=
  forall s i, src_ok T ms dl s -> 0 <= i -> i + Z.of_nat hw <= cap ms dl s ->
  exists r, exec T ms dl (ld s i) [] r /\ lo r = be hw (at_ ms s i).

Lemma half_group H x j : 0 <= j < 2 * H -> (2 * H * x + j) / 2 = H * x + j / 2.
Proof. intros Hj. replace (2 * H * x + j) with (2 * (H * x) + j) by ring. apply half_add. Qed.

Lemma vk21_ok T hw px pf dup lo hi ld2 c :
  (0 < hw)%nat -> 0 < bytes_per_pixel pf ->
  (forall ms dl, bytes_ok ms -> store_ok T ms dl px pf hw /\ ld2_ok T ms dl hw ld2) ->
  dup_ok hw dup -> lo_ok hw lo -> hi_ok hw hi ->
  v21_ok T (2 * Z.of_nat hw) x86_arith pf c (vk21 hw px (bytes_per_pixel pf) dup lo hi ld2 c).
Proof.
  intros Hhw Hdp Hc Hdup Hlo Hhi ms dl HB k cw ch w h ybuf ys uvbuf uvs dst n ds Ew Ecw Eh Hy Huv Hd Fy Fuv Fd.
  destruct (Hc ms dl HB) as (Hpx & Hld). clear Hc.
  set (H := Z.of_nat hw) in *. assert (HH : 0 < H) by lia. subst h. rewrite Ew in *. clear w Ew.
  unfold vk21. rewrite two_div. fold H.
  replace (2 * H * k / (2 * H)) with k by (rewrite Z.mul_comm, Z.div_mul; lia).
  eapply runs_for2.
  { apply Forall2_cons; [|apply Forall2_nil].
    apply tiled_eq with (th := 2) (tw := 2 * (bytes_per_pixel pf * H));
      unfold out_area; cbn [a_rows a_cols]; nia. }
  intros y x Hy' Hx. cbn [map in_areas].
  destruct (wg_fit T ms dl uvbuf uvs ch k (2 * H) x y) as (D & P & Q); auto; try lia. { apply Huv. }
  eapply runs_iff; [|intros wr; unfold wunion, wempty; split; [intros X; left; exact X | intros [X|[]]; exact X]].
  eapply runs_bind0; [exact D|].
  eapply runs_bind0; [apply Hld; auto|]. cbv beta iota.
  apply runs_vtile; auto.
  - intros j. apply at_bytes; auto.
  - intros j. apply at_bytes; auto.
  - intros i j Hi Hj. fold H in Hj |- *. unfold nv12_col.
    rewrite half_even, half_group by lia. cbn [ar_rgb x86_arith]. unfold at_.
    f_equal; f_equal; lia.
Qed.

Lemma vk420r_ok T hw px pf dup lo hi ld1 c :
  (0 < hw)%nat -> 0 < bytes_per_pixel pf ->
  (forall ms dl, bytes_ok ms -> store_ok T ms dl px pf hw /\ ld1_ok T ms dl hw ld1) ->
  dup_ok hw dup -> lo_ok hw lo -> hi_ok hw hi ->
  v420r_ok T (2 * Z.of_nat hw) x86_arith pf c (vk420r hw px (bytes_per_pixel pf) dup lo hi ld1 c).
Proof.
  intros Hhw Hdp Hc Hdup Hlo Hhi ms dl HB k cw ch w h ybuf ys ubuf us vbuf vs dst n ds
    Ew Ecw Eh Hy Hu Hv Hd Fy Fu Fv Fd.
  destruct (Hc ms dl HB) as (Hpx & Hld). clear Hc.
  set (H := Z.of_nat hw) in *. assert (HH : 0 < H) by lia.
  assert (Ec : cw = H * k) by lia. subst h. rewrite Ec, Ew in *. clear w Ew cw Ec Ecw.
  unfold vk420r. rewrite two_div. fold H.
  replace (2 * H * k / (2 * H)) with k by (rewrite Z.mul_comm, Z.div_mul; lia).
  eapply runs_for2.
  { apply Forall2_cons; [|apply Forall2_nil].
    apply tiled_eq with (th := 2) (tw := 2 * (bytes_per_pixel pf * H));
      unfold out_area; cbn [a_rows a_cols]; nia. }
  intros y x Hy' Hx. cbn [map in_areas].
  destruct (wg_fit T ms dl ubuf us ch k H x y) as (Du & Pu & Qu); auto; try lia. { apply Hu. }
  destruct (wg_fit T ms dl vbuf vs ch k H x y) as (Dv & Pv & Qv); auto; try lia. { apply Hv. }
  eapply runs_iff; [|intros wr; unfold wunion, wempty; split; [intros X; left; exact X | intros [X|[]]; exact X]].
  eapply runs_bind0; [exact Du|].
  eapply runs_bind0; [apply Hld; auto|].
  eapply runs_bind0; [exact Dv|].
  eapply runs_bind0; [apply Hld; auto|].
  apply runs_vtile; auto.
  - apply at_bytes; auto.
  - apply at_bytes; auto.
  - intros i j Hi Hj. fold H in Hj |- *. unfold i420_col.
    rewrite half_even, half_group by lia. cbn [ar_rgb x86_arith]. unfold at_.
    f_equal; f_equal; lia.
Qed.

Lemma vk444r_ok T hw px pf ld lo c :
  (0 < hw)%nat -> 0 < bytes_per_pixel pf ->
  (forall ms dl, bytes_ok ms -> store_ok T ms dl px pf hw /\ ldlo_ok T ms dl hw ld lo) ->
  v444r_ok T (Z.of_nat hw) x86_arith pf c (vk444r hw px (bytes_per_pixel pf) ld lo c).
Proof.
  intros Hhw Hdp Hc ms dl HB k w h ybuf ys ubuf us vbuf vs dst n ds
    Ew Hy Hu Hv Hd Fy Fu Fv Fd.
  destruct (Hc ms dl HB) as (Hpx & Hld). clear Hc.
  set (H := Z.of_nat hw) in *. assert (HH : 0 < H) by lia.
  rewrite Ew in *. clear w Ew. set (d := bytes_per_pixel pf) in *.
  unfold vk444r. fold H.
  replace (H * k / H) with k by (rewrite Z.mul_comm, Z.div_mul; lia).
  eapply runs_for2.
  { apply Forall2_cons; [|apply Forall2_nil].
    apply tiled_eq with (th := 1) (tw := d * H); unfold out_area; cbn [a_rows a_cols]; fold d; nia. }
  intros y x Hy' Hx. cbn [map in_areas].
  destruct (wg_fit T ms dl ybuf ys h k H x y) as (Dy & Py & Qy); auto; try lia. { apply Hy. }
  destruct (wg_fit T ms dl ubuf us h k H x y) as (Du & Pu & Qu); auto; try lia. { apply Hu. }
  destruct (wg_fit T ms dl vbuf vs h k H x y) as (Dv & Pv & Qv); auto; try lia. { apply Hv. }
  assert (Fd' : fits ms dl dst ds h (d * H * k)).
  { replace (d * H * k) with (d * (H * k)) by ring. auto. }
  destruct (wg_fit T ms dl dst ds h k (d * H) x y) as (Dd & Pd & Qd); auto; try lia; try (apply Hd).
  destruct (Hld ubuf (us * y + x * H)) as (ru & Lu & Eu); auto.
  destruct (Hld vbuf (vs * y + x * H)) as (rv & Lv & Ev); auto.
  destruct (Hld ybuf (ys * y + x * H)) as (ry & Ly & Ey); auto.
  eapply runs_iff.
  - eapply runs_bind0; [exact Du|].
    eapply runs_bind0; [exact Lu|].
    eapply runs_bind0; [exact Dv|].
    eapply runs_bind0; [exact Lv|].
    eapply runs_bind0; [exact Dy|].
    eapply runs_bind0; [exact Ly|].
    rewrite Eu, Ev, Ey, chroma_g_lanes by (apply at_bytes; auto).
    eapply runs_bind0; [exact Dd|].
    apply (runs_pixels T ms dl px pf hw c dst n); auto. apply at_bytes; auto.
  - intros wr. unfold wunion, wempty.
    assert (X : forall A : Prop, A \/ False <-> A) by tauto. rewrite X. clear X.
    unfold out_area. fold d. rewrite tile_row; [|intros j Hj; reflexivity].
    unfold group_area. fold d H. apply area_ext. intros y' j _ Hj.
    pose proof (group_pos d H j Hdp Hj) as Hj'.
    replace (d * H * x + j) with (x * (bytes_per_pixel pf * H) + j) by (unfold d; ring).
    unfold d. rewrite group_val by auto. fold d. f_equal.
    unfold i444_col. cbn [ar_rgb x86_arith]. unfold at_.
    replace (1 * y + 0) with y by lia.
    f_equal; f_equal; lia.
Qed.

(** ** Helpers for the two instruction sets *)
Lemma runs_stn2 T ms dl dst n o (m m' : nat) F :
  dst_ok T ms dl dst n -> 0 <= o -> o + (Z.of_nat m + Z.of_nat m') <= cap ms dl dst ->
  runs T ms dl (stn dst o (map F (zseq 0 m)) ;; stn dst (o + Z.of_nat m) (map (fun j => F (Z.of_nat m + j)) (zseq 0 m')))
    (in_area (Area n (s_off dst + o) 0 1 (Z.of_nat m + Z.of_nat m') (fun _ j => F j))) tt.
Proof.
  intros Hd Ho Hl. eapply runs_iff.
  - eapply runs_bind; [apply runs_stn_map; eauto; lia|]. apply runs_stn_map; eauto; lia.
  - intros w. unfold wunion. rewrite area_cols by lia. apply or_iff; [tauto|].
    apply area_ext'; try reflexivity. lia.
Qed.

Lemma shl_low hw f : w16 (loaded (2 * hw) f) = map (fun k => f (2 * k) + 256 * f (2 * k + 1)) (zseq 0 hw) ->
  slli_epi16 (loaded (2 * hw) f) 8 = be hw (fun k => f (2 * k)).
Proof.
  intros E. unfold slli_epi16. rewrite E, map_map. apply b16_ext. intros k _.
  change (2 ^ 8) with 256.
  replace ((f (2 * k) + 256 * f (2 * k + 1)) * 256) with (256 * f (2 * k) + f (2 * k + 1) * 65536) by ring.
  apply Z.mod_add; lia.
Qed.
Lemma shl_high hw f : all_bytes f ->
  w16 (loaded (2 * hw) f) = map (fun k => f (2 * k) + 256 * f (2 * k + 1)) (zseq 0 hw) ->
  slli_epi16 (srli_epi16 (loaded (2 * hw) f) 8) 8 = be hw (fun k => f (2 * k + 1)).
Proof.
  intros Hf E. unfold srli_epi16. rewrite E, map_map.
  unfold slli_epi16. rewrite w16_map, map_map. apply b16_ext. intros k _.
  change (2 ^ 8) with 256. destruct (byte_cons (f (2 * k)) (f (2 * k + 1)) (Hf _)) as [_ ->].
  pose proof (Hf (2 * k + 1)) as B. unfold is_byte in B. rewrite (Z.mod_small (f (2 * k + 1))) by lia.
  f_equal. ring.
Qed.

