(** Kernels that convert RGB to YCbCr in groups of [W] pixels: the loops of sse2.rs,
    avx2.rs and neon.rs, for any functions on registers that compute the samples of one
    group. *)
From Coq Require Import ZArith List Bool Lia ZifyBool ZifyNat.
Import ListNotations.
From Verif Require Import Base Exec Area Fmt Common Scalar Wrappers Spec PixelFacts KernelBase
  ForwardProofs BackwardProofs.
Open Scope Z_scope.

(** ** One group of pixels *)

(** The pixel at offset [o] of the bytes [f]. *)
Definition pxf (smp : sampler) (f : Z -> Z) (o : Z) : rgb :=
  let '(o0, o1, o2) := sampler_offsets smp in (f (o + o0), f (o + o1), f (o + o2)).

(** Pixel [k] of the group, and the sum of its block [k] with the row below. *)
Definition gpx (smp : sampler) (f : Z -> Z) (k : Z) : rgb := pxf smp f (k * sampler_depth smp).
Definition gsum (smp : sampler) (f g : Z -> Z) (k : Z) : rgb :=
  add_rgb (add_rgb (gpx smp f (2 * k)) (gpx smp f (2 * k + 1)))
          (add_rgb (gpx smp g (2 * k)) (gpx smp g (2 * k + 1))).

Definition all_bytes (f : Z -> Z) : Prop := forall i, is_byte (f i).
Definition loaded (n : nat) (f : Z -> Z) : list Z := map f (zseq 0 n).

(** The functions on registers compute the samples of a group: luma, interleaved chroma,
    separate chroma, chroma without subsampling. *)
Definition fy_ok (W : nat) (n : nat) (ar : arith) smp cs (fy : list Z -> list Z) : Prop :=
  forall f, all_bytes f ->
  fy (loaded n f) = map (fun k => ar_luma ar cs (gpx smp f k)) (zseq 0 W).
Definition fuv_ok (W : nat) (n : nat) (ar : arith) smp cs (fuv : list Z -> list Z -> list Z) : Prop :=
  forall f g, all_bytes f -> all_bytes g ->
  fuv (loaded n f) (loaded n g)
  = map (fun j => if j mod 2 =? 0 then ar_cb ar cs 4 (gsum smp f g (j / 2))
                  else ar_cr ar cs 4 (gsum smp f g (j / 2))) (zseq 0 W).
Definition fu_ok (hw : nat) (n : nat) (ar : arith) smp cs (fu : list Z -> list Z -> list Z) : Prop :=
  forall f g, all_bytes f -> all_bytes g ->
  fu (loaded n f) (loaded n g) = map (fun k => ar_cb ar cs 4 (gsum smp f g k)) (zseq 0 hw).
Definition fv_ok (hw : nat) (n : nat) (ar : arith) smp cs (fv : list Z -> list Z -> list Z) : Prop :=
  forall f g, all_bytes f -> all_bytes g ->
  fv (loaded n f) (loaded n g) = map (fun k => ar_cr ar cs 4 (gsum smp f g k)) (zseq 0 hw).
Definition fu4_ok (W : nat) (n : nat) (ar : arith) smp cs (fu : list Z -> list Z) : Prop :=
  forall f, all_bytes f ->
  fu (loaded n f) = map (fun k => ar_cb ar cs 1 (gpx smp f k)) (zseq 0 W).
Definition fv4_ok (W : nat) (n : nat) (ar : arith) smp cs (fv : list Z -> list Z) : Prop :=
  forall f, all_bytes f ->
  fv (loaded n f) = map (fun k => ar_cr ar cs 1 (gpx smp f k)) (zseq 0 W).

(** ** The loops *)
Definition vk12 (W : Z) (n : nat) (depth : Z) (fy : list Z -> list Z)
           (fuv : list Z -> list Z -> list Z) : kernel_1_2 :=
  fun width height src_stride src dst_strides dst =>
  let '(y_stride, uv_stride) := dst_strides in
  let '(ybuf, uvbuf) := dst in
  for_ (height / 2) (fun y => for_ (width / W) (fun x =>
    i0 <- wg_index x (2 * y) (depth * W) src_stride ;;
    i1 <- wg_index x (2 * y + 1) (depth * W) src_stride ;;
    o0 <- wg_index x (2 * y) W y_stride ;;
    o1 <- wg_index x (2 * y + 1) W y_stride ;;
    o <- wg_index x y W uv_stride ;;
    l0 <- ldn src i0 n ;;
    stn ybuf o0 (fy l0) ;;
    l1 <- ldn src i1 n ;;
    stn ybuf o1 (fy l1) ;;
    stn uvbuf o (fuv l0 l1))).

Definition vk420 (W : Z) (n : nat) (depth : Z) (fy : list Z -> list Z)
           (fu fv : list Z -> list Z -> list Z) : kernel_1_3 :=
  fun width height src_stride src dst_strides dst =>
  let '(y_stride, u_stride, v_stride) := dst_strides in
  let '(ybuf, ubuf, vbuf) := dst in
  for_ (height / 2) (fun y => for_ (width / W) (fun x =>
    i0 <- wg_index x (2 * y) (depth * W) src_stride ;;
    i1 <- wg_index x (2 * y + 1) (depth * W) src_stride ;;
    o0 <- wg_index x (2 * y) W y_stride ;;
    o1 <- wg_index x (2 * y + 1) W y_stride ;;
    ou <- wg_index x y (W / 2) u_stride ;;
    ov <- wg_index x y (W / 2) v_stride ;;
    l0 <- ldn src i0 n ;;
    stn ybuf o0 (fy l0) ;;
    l1 <- ldn src i1 n ;;
    stn ybuf o1 (fy l1) ;;
    stn ubuf ou (fu l0 l1) ;;
    stn vbuf ov (fv l0 l1))).

Definition vk444 (W : Z) (n : nat) (depth : Z) (fy fu fv : list Z -> list Z) : kernel_1_3 :=
  fun width height src_stride src dst_strides dst =>
  let '(y_stride, u_stride, v_stride) := dst_strides in
  let '(ybuf, ubuf, vbuf) := dst in
  for_ height (fun y => for_ (width / W) (fun x =>
    i <- wg_index x y (depth * W) src_stride ;;
    oy <- wg_index x y W y_stride ;;
    ou <- wg_index x y W u_stride ;;
    ov <- wg_index x y W v_stride ;;
    l <- ldn src i n ;;
    stn ybuf oy (fy l) ;;
    stn ubuf ou (fu l) ;;
    stn vbuf ov (fv l))).

(** ** What a vector kernel has to do: widths that are a multiple of [W], [over] readable
    bytes after the last pixel *)
Definition v12_ok (T : target) (W over : Z) (ar : arith) smp c (kv : kernel_1_2) : Prop :=
  forall ms dl, bytes_ok ms -> forall k cw ch w h src ss ybuf ny ys uvbuf nuv uvs,
  w = W * k -> w = 2 * cw -> h = 2 * ch ->
  src_ok T ms dl src -> dst_ok T ms dl ybuf ny -> dst_ok T ms dl uvbuf nuv ->
  fits ms dl src ss h (sampler_depth smp * w + over) ->
  fits ms dl ybuf ys h w -> fits ms dl uvbuf uvs ch w ->
  runs T ms dl (kv w h ss src (ys, uvs) (ybuf, uvbuf))
    (in_areas [luma_area (fun _ => ar) (cs_of c) (kpx ms smp src ss) ny ybuf ys h w;
               uv_area (fun _ => ar) (cs_of c) (kpx ms smp src ss) nuv uvbuf uvs ch cw]) tt.
Definition v420_ok (T : target) (W over : Z) (ar : arith) smp c (kv : kernel_1_3) : Prop :=
  forall ms dl, bytes_ok ms -> forall k cw ch w h src ss ybuf ny ys ubuf nu us vbuf nv vs,
  w = W * k -> w = 2 * cw -> h = 2 * ch ->
  src_ok T ms dl src -> dst_ok T ms dl ybuf ny -> dst_ok T ms dl ubuf nu -> dst_ok T ms dl vbuf nv ->
  fits ms dl src ss h (sampler_depth smp * w + over) ->
  fits ms dl ybuf ys h w -> fits ms dl ubuf us ch cw -> fits ms dl vbuf vs ch cw ->
  runs T ms dl (kv w h ss src (ys, us, vs) (ybuf, ubuf, vbuf))
    (in_areas [luma_area (fun _ => ar) (cs_of c) (kpx ms smp src ss) ny ybuf ys h w;
               u_area (fun _ => ar) (cs_of c) (kpx ms smp src ss) nu ubuf us ch cw;
               v_area (fun _ => ar) (cs_of c) (kpx ms smp src ss) nv vbuf vs ch cw]) tt.
Definition v444_ok (T : target) (W over : Z) (ar : arith) smp c (kv : kernel_1_3) : Prop :=
  forall ms dl, bytes_ok ms -> forall k w h src ss ybuf ny ys ubuf nu us vbuf nv vs,
  w = W * k ->
  src_ok T ms dl src -> dst_ok T ms dl ybuf ny -> dst_ok T ms dl ubuf nu -> dst_ok T ms dl vbuf nv ->
  fits ms dl src ss h (sampler_depth smp * w + over) ->
  fits ms dl ybuf ys h w -> fits ms dl ubuf us h w -> fits ms dl vbuf vs h w ->
  runs T ms dl (kv w h ss src (ys, us, vs) (ybuf, ubuf, vbuf))
    (in_areas [luma_area (fun _ => ar) (cs_of c) (kpx ms smp src ss) ny ybuf ys h w;
               u444_area (fun _ => ar) (cs_of c) (kpx ms smp src ss) nu ubuf us h w;
               v444_area (fun _ => ar) (cs_of c) (kpx ms smp src ss) nv vbuf vs h w]) tt.

(** ** Proofs *)
Lemma half_add a j : (2 * a + j) / 2 = a + j / 2.
Proof. rewrite Z.mul_comm, Z.div_add_l by lia. auto. Qed.
Lemma half_add_mod a j : (2 * a + j) mod 2 = j mod 2.
Proof. rewrite Z.mul_comm, Z.add_comm, Z.mod_add by lia. auto. Qed.

Lemma zseq_shift a n (f : Z -> Z) : map f (zseq a n) = map (fun i => f (a + i)) (zseq 0 n).
Proof.
  assert (H : forall b, map f (zseq (a + b) n) = map (fun i => f (a + i)) (zseq b n)).
  { induction n as [|n IH]; intros b; cbn [zseq map]; auto. f_equal.
    rewrite <- (IH (b + 1)). do 2 f_equal. lia. }
  rewrite <- (H 0), Z.add_0_r. auto.
Qed.

Lemma nth_map_zseq (F : Z -> Z) n j : 0 <= j < Z.of_nat n -> nth (Z.to_nat j) (map F (zseq 0 n)) 0 = F j.
Proof.
  intros H. rewrite nth_indep with (d' := F 0) by (rewrite map_length, zseq_length; lia).
  rewrite map_nth, nth_zseq by lia. f_equal. lia.
Qed.

Lemma zlen_map_zseq (F : Z -> Z) n : zlen (map F (zseq 0 n)) = Z.of_nat n.
Proof. unfold zlen. rewrite map_length, zseq_length. auto. Qed.

Section Vec.
Variable T : target.
Variable ms : list (list Z).
Variable dl : list nat.
Hypothesis HB : bytes_ok ms.

Notation exec := (exec T ms dl).
Notation runs := (runs T ms dl).
Notation fits := (fits ms dl).
Notation src_ok := (src_ok T ms dl).
Notation dst_ok := (dst_ok T ms dl).

(** Storing a computed row. *)
Lemma runs_stn_map s n i F m : dst_ok s n -> 0 <= i -> i + Z.of_nat m <= cap ms dl s ->
  runs (stn s i (map F (zseq 0 m)))
    (in_area (Area n (s_off s + i) 0 1 (Z.of_nat m) (fun _ j => F j))) tt.
Proof.
  intros (H1 & H2 & _) H3 H4. eapply runs_iff.
  - eapply runs_stn; eauto. rewrite zlen_map_zseq. auto.
  - intros w. rewrite zlen_map_zseq. apply area_ext. intros y j _ Hj. apply nth_map_zseq; auto.
Qed.

Definition at_ (s : slice) (i : Z) : Z -> Z := fun j => byte ms s (i + j).

Lemma at_bytes s i : all_bytes (at_ s i).
Proof. intros j. apply byte_range; auto. Qed.

Lemma exec_load s i n : src_ok s -> 0 <= i -> i + Z.of_nat n <= cap ms dl s ->
  exec (ldn s i n) [] (loaded n (at_ s i)).
Proof.
  intros (H1 & H2 & _) H3 H4. eapply exec_eq; [apply exec_ldn; auto|auto|].
  apply zseq_shift.
Qed.

Lemma gpx_at smp s i k : gpx smp (at_ s i) k = pixel3 ms smp s (i + k * sampler_depth smp).
Proof.
  unfold gpx, pxf, pixel3, at_. destruct (sampler_offsets smp) as [[o0 o1] o2].
  rewrite !Z.add_assoc. auto.
Qed.

Lemma group_px smp s ss W x y k :
  gpx smp (at_ s (ss * y + x * (sampler_depth smp * W))) k = kpx ms smp s ss (W * x + k) y.
Proof. rewrite gpx_at. unfold kpx. f_equal. ring. Qed.

Lemma group_sum smp s ss hw x y k :
  gsum smp (at_ s (ss * (2 * y) + x * (sampler_depth smp * (2 * hw))))
           (at_ s (ss * (2 * y + 1) + x * (sampler_depth smp * (2 * hw)))) k
  = block_sum (kpx ms smp s ss) (hw * x + k) y.
Proof.
  unfold gsum, block_sum. rewrite !group_px.
  replace (2 * hw * x + 2 * k) with (2 * (hw * x + k)) by ring.
  replace (2 * hw * x + (2 * k + 1)) with (2 * (hw * x + k) + 1) by ring. auto.
Qed.

(** Where a group is loaded. *)
Lemma group_load smp s ss rows W k over n x y :
  src_ok s -> fits s ss rows (sampler_depth smp * (W * k) + over) -> 0 < W ->
  Z.of_nat n <= sampler_depth smp * W + over -> 0 <= over -> 0 <= x < k -> 0 <= y < rows ->
  exec (wg_index x y (sampler_depth smp * W) ss) [] (ss * y + x * (sampler_depth smp * W)) /\
  exec (ldn s (ss * y + x * (sampler_depth smp * W)) n) []
       (loaded n (at_ s (ss * y + x * (sampler_depth smp * W)))).
Proof.
  intros Hs [F1 F2] HW Hn Ho Hx Hy.
  assert (0 < sampler_depth smp * W) by (destruct smp; cbn [sampler_depth]; lia).
  replace (sampler_depth smp * (W * k)) with (sampler_depth smp * W * k) in F2 by ring.
  set (d := sampler_depth smp * W) in *. clearbody d.
  assert (0 <= ss * y <= (rows - 1) * ss) by nia.
  assert (0 <= x * d /\ x * d + d <= d * k) by nia.
  split.
  - apply exec_wg_index; try lia. destruct Hs as (_ & _ & Hc). lia.
  - apply exec_load; auto; lia.
Qed.

Ltac area_dims := unfold luma_area, uv_area, u_area, v_area, u444_area, v444_area;
  cbn [a_rows a_cols]; lia.

(** A one-row tile. *)
Lemma tile_row tw n b s h w f y x F wr :
  (forall j, 0 <= j < tw -> f (1 * y + 0) (tw * x + j) = F j) ->
  in_area (tile 1 tw (Area n b s h w f) y x) wr <->
  in_area (Area n (b + (s * y + x * tw)) 0 1 tw (fun _ j => F j)) wr.
Proof.
  intros H. unfold tile; cbn [a_buf a_base a_stride a_rows a_cols a_val].
  rewrite (area_row _ _ s 0). apply area_ext'; try reflexivity; [lia|].
  intros y' j Hy Hj. replace y' with 0 by lia. apply H; auto.
Qed.

(** A two-row tile. *)
Lemma tile_row2 tw n b s h w f y x F G wr :
  (forall j, 0 <= j < tw -> f (2 * y) (tw * x + j) = F j) ->
  (forall j, 0 <= j < tw -> f (2 * y + 1) (tw * x + j) = G j) ->
  in_area (tile 2 tw (Area n b s h w f) y x) wr <->
  in_area (Area n (b + (s * (2 * y) + x * tw)) 0 1 tw (fun _ j => F j)) wr \/
  in_area (Area n (b + (s * (2 * y + 1) + x * tw)) 0 1 tw (fun _ j => G j)) wr.
Proof.
  intros H1 H2. unfold tile; cbn [a_buf a_base a_stride a_rows a_cols a_val].
  rewrite area_rows2. rewrite (area_row _ _ s 0), (area_row _ (_ + s) s 0).
  apply or_iff; (apply area_ext'; try reflexivity; [lia|]); intros y' j Hy Hj.
  - rewrite Z.add_0_r. apply H1; auto.
  - apply H2; auto.
Qed.

Lemma wg_fit1 s n stride rows k w x y :
  dst_ok s n -> fits s stride rows (w * k) -> 0 < w -> 0 <= x < k -> 0 <= y < rows ->
  exec (wg_index x y w stride) [] (stride * y + x * w) /\
  0 <= stride * y + x * w /\ stride * y + x * w + w <= cap ms dl s.
Proof. intros (_ & _ & Hc & _). apply wg_fit; auto. Qed.

End Vec.

Lemma vk12_ok T hw n over ar smp c fy fuv :
  (0 < hw)%nat -> 0 <= over -> Z.of_nat n <= sampler_depth smp * (2 * Z.of_nat hw) + over ->
  fy_ok (2 * hw) n ar smp (cs_of c) fy -> fuv_ok (2 * hw) n ar smp (cs_of c) fuv ->
  v12_ok T (2 * Z.of_nat hw) over ar smp c (vk12 (2 * Z.of_nat hw) n (sampler_depth smp) fy fuv).
Proof.
  intros Hhw Hov Hn Hfy Hfuv ms dl HB k cw ch w h src ss ybuf ny ys uvbuf nuv uvs
    Ew Ecw Eh Hs Hy Huv Fs Fy Fuv.
  set (W := 2 * Z.of_nat hw) in *. assert (HW : 0 < W) by lia.
  assert (EW : Z.of_nat (2 * hw) = W) by lia.
  subst w h. unfold vk12. rewrite two_div.
  replace (W * k / W) with k by (rewrite Z.mul_comm, Z.div_mul; lia).
  eapply runs_for2.
  { apply Forall2_cons; [apply tiled_eq with (th := 2) (tw := W); unfold luma_area; cbn [a_rows a_cols]; lia|].
    apply Forall2_cons; [apply tiled_eq with (th := 1) (tw := W); unfold uv_area; cbn [a_rows a_cols]; lia|].
    apply Forall2_nil. }
  intros y x Hy' Hx.
  destruct (group_load T ms dl smp src ss (2 * ch) W k over n x (2 * y)) as [E0 L0]; auto; try lia.
  destruct (group_load T ms dl smp src ss (2 * ch) W k over n x (2 * y + 1)) as [E1 L1]; auto; try lia.
  destruct (wg_fit1 T ms dl ybuf ny ys (2 * ch) k W x (2 * y)) as (D0 & P0 & Q0); auto; try lia.
  destruct (wg_fit1 T ms dl ybuf ny ys (2 * ch) k W x (2 * y + 1)) as (D1 & P1 & Q1); auto; try lia.
  destruct (wg_fit1 T ms dl uvbuf nuv uvs ch k W x y) as (D & P & Q); auto; try lia.
  cbn [map in_areas].
  eapply runs_iff.
  - eapply runs_bind0; [exact E0|].
    eapply runs_bind0; [exact E1|].
    eapply runs_bind0; [exact D0|].
    eapply runs_bind0; [exact D1|].
    eapply runs_bind0; [exact D|].
    eapply runs_bind0; [exact L0|].
    rewrite Hfy by (apply at_bytes; auto).
    eapply runs_bind; [apply runs_stn_map; eauto; lia|].
    eapply runs_bind0; [exact L1|].
    rewrite Hfy, Hfuv by (apply at_bytes; auto).
    eapply runs_bind; [apply runs_stn_map; eauto; lia|].
    apply runs_stn_map; eauto; lia.
  - intros wr. unfold wunion, wempty. rewrite EW.
    unfold luma_area. rewrite tile_row2; [|intros j Hj; reflexivity|intros j Hj; reflexivity].
    unfold uv_area. rewrite tile_row; [|intros j Hj; reflexivity].
    rewrite or_assoc. apply or_iff.
    { apply area_ext. intros y' j _ Hj. rewrite group_px. auto. }
    apply or_iff.
    { apply area_ext. intros y' j _ Hj. rewrite group_px. auto. }
    assert (X : forall A : Prop, A \/ False <-> A) by tauto. rewrite X. clear X.
    apply area_ext. intros y' j _ Hj. unfold W. rewrite !group_sum.
    replace (1 * y + 0) with y by lia.
    rewrite <- Z.mul_assoc, half_add, half_add_mod. auto.
Qed.

Lemma vk420_ok T hw n over ar smp c fy fu fv :
  (0 < hw)%nat -> 0 <= over -> Z.of_nat n <= sampler_depth smp * (2 * Z.of_nat hw) + over ->
  fy_ok (2 * hw) n ar smp (cs_of c) fy -> fu_ok hw n ar smp (cs_of c) fu ->
  fv_ok hw n ar smp (cs_of c) fv ->
  v420_ok T (2 * Z.of_nat hw) over ar smp c (vk420 (2 * Z.of_nat hw) n (sampler_depth smp) fy fu fv).
Proof.
  intros Hhw Hov Hn Hfy Hfu Hfv ms dl HB k cw ch w h src ss ybuf ny ys ubuf nu us vbuf nv vs
    Ew Ecw Eh Hs Hy Hu Hv Fs Fy Fu Fv.
  set (W := 2 * Z.of_nat hw) in *. assert (HW : 0 < W) by lia.
  assert (EW : Z.of_nat (2 * hw) = W) by lia.
  assert (Ec : cw = Z.of_nat hw * k) by lia.
  subst w h. unfold vk420. rewrite two_div.
  replace (W * k / W) with k by (rewrite Z.mul_comm, Z.div_mul; lia).
  replace (W / 2) with (Z.of_nat hw) by (unfold W; rewrite two_div; auto).
  rewrite Ec in *.
  eapply runs_for2.
  { apply Forall2_cons; [apply tiled_eq with (th := 2) (tw := W); unfold luma_area; cbn [a_rows a_cols]; lia|].
    apply Forall2_cons; [apply tiled_eq with (th := 1) (tw := Z.of_nat hw); unfold u_area; cbn [a_rows a_cols]; lia|].
    apply Forall2_cons; [apply tiled_eq with (th := 1) (tw := Z.of_nat hw); unfold v_area; cbn [a_rows a_cols]; lia|].
    apply Forall2_nil. }
  intros y x Hy' Hx.
  destruct (group_load T ms dl smp src ss (2 * ch) W k over n x (2 * y)) as [E0 L0]; auto; try lia.
  destruct (group_load T ms dl smp src ss (2 * ch) W k over n x (2 * y + 1)) as [E1 L1]; auto; try lia.
  destruct (wg_fit1 T ms dl ybuf ny ys (2 * ch) k W x (2 * y)) as (D0 & P0 & Q0); auto; try lia.
  destruct (wg_fit1 T ms dl ybuf ny ys (2 * ch) k W x (2 * y + 1)) as (D1 & P1 & Q1); auto; try lia.
  destruct (wg_fit1 T ms dl ubuf nu us ch k (Z.of_nat hw) x y) as (Du & Pu & Qu); auto; try lia.
  destruct (wg_fit1 T ms dl vbuf nv vs ch k (Z.of_nat hw) x y) as (Dv & Pv & Qv); auto; try lia.
  cbn [map in_areas].
  eapply runs_iff.
  - eapply runs_bind0; [exact E0|].
    eapply runs_bind0; [exact E1|].
    eapply runs_bind0; [exact D0|].
    eapply runs_bind0; [exact D1|].
    eapply runs_bind0; [exact Du|].
    eapply runs_bind0; [exact Dv|].
    eapply runs_bind0; [exact L0|].
    rewrite Hfy by (apply at_bytes; auto).
    eapply runs_bind; [apply runs_stn_map; eauto; lia|].
    eapply runs_bind0; [exact L1|].
    rewrite Hfy, Hfu, Hfv by (apply at_bytes; auto).
    eapply runs_bind; [apply runs_stn_map; eauto; lia|].
    eapply runs_bind; [apply runs_stn_map; eauto; lia|].
    apply runs_stn_map; eauto; lia.
  - intros wr. unfold wunion, wempty. rewrite EW.
    unfold luma_area. rewrite tile_row2; [|intros j Hj; reflexivity|intros j Hj; reflexivity].
    unfold u_area. rewrite tile_row; [|intros j Hj; reflexivity].
    unfold v_area. rewrite tile_row; [|intros j Hj; reflexivity].
    rewrite or_assoc. apply or_iff.
    { apply area_ext. intros y' j _ Hj. rewrite group_px. auto. }
    apply or_iff.
    { apply area_ext. intros y' j _ Hj. rewrite group_px. auto. }
    assert (X : forall A : Prop, A \/ False <-> A) by tauto. rewrite X. clear X.
    apply or_iff; apply area_ext; intros y' j _ Hj; unfold W; rewrite !group_sum;
      replace (1 * y + 0) with y by lia; auto.
Qed.

Lemma vk444_ok T Wn n over ar smp c fy fu fv :
  (0 < Wn)%nat -> 0 <= over -> Z.of_nat n <= sampler_depth smp * Z.of_nat Wn + over ->
  fy_ok Wn n ar smp (cs_of c) fy -> fu4_ok Wn n ar smp (cs_of c) fu ->
  fv4_ok Wn n ar smp (cs_of c) fv ->
  v444_ok T (Z.of_nat Wn) over ar smp c (vk444 (Z.of_nat Wn) n (sampler_depth smp) fy fu fv).
Proof.
  intros Hhw Hov Hn Hfy Hfu Hfv ms dl HB k w h src ss ybuf ny ys ubuf nu us vbuf nv vs
    Ew Hs Hy Hu Hv Fs Fy Fu Fv.
  set (W := Z.of_nat Wn) in *. assert (HW : 0 < W) by lia.
  subst w. unfold vk444.
  replace (W * k / W) with k by (rewrite Z.mul_comm, Z.div_mul; lia).
  eapply runs_for2.
  { apply Forall2_cons; [apply tiled_eq with (th := 1) (tw := W); unfold luma_area; cbn [a_rows a_cols]; lia|].
    apply Forall2_cons; [apply tiled_eq with (th := 1) (tw := W); unfold u444_area; cbn [a_rows a_cols]; lia|].
    apply Forall2_cons; [apply tiled_eq with (th := 1) (tw := W); unfold v444_area; cbn [a_rows a_cols]; lia|].
    apply Forall2_nil. }
  intros y x Hy' Hx.
  destruct (group_load T ms dl smp src ss h W k over n x y) as [E0 L0]; auto; try lia.
  destruct (wg_fit1 T ms dl ybuf ny ys h k W x y) as (D0 & P0 & Q0); auto; try lia.
  destruct (wg_fit1 T ms dl ubuf nu us h k W x y) as (Du & Pu & Qu); auto; try lia.
  destruct (wg_fit1 T ms dl vbuf nv vs h k W x y) as (Dv & Pv & Qv); auto; try lia.
  cbn [map in_areas].
  eapply runs_iff.
  - eapply runs_bind0; [exact E0|].
    eapply runs_bind0; [exact D0|].
    eapply runs_bind0; [exact Du|].
    eapply runs_bind0; [exact Dv|].
    eapply runs_bind0; [exact L0|].
    rewrite Hfy, Hfu, Hfv by (apply at_bytes; auto).
    eapply runs_bind; [apply runs_stn_map; eauto; lia|].
    eapply runs_bind; [apply runs_stn_map; eauto; lia|].
    apply runs_stn_map; eauto; lia.
  - intros wr. unfold wunion, wempty. fold W.
    unfold luma_area. rewrite tile_row; [|intros j Hj; reflexivity].
    unfold u444_area. rewrite tile_row; [|intros j Hj; reflexivity].
    unfold v444_area. rewrite tile_row; [|intros j Hj; reflexivity].
    assert (X : forall A : Prop, A \/ False <-> A) by tauto. rewrite X. clear X.
    replace (1 * y + 0) with y by lia.
    apply or_iff; [|apply or_iff]; apply area_ext; intros y' j _ Hj; rewrite group_px; auto.
Qed.
