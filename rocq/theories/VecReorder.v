(** Kernels that reorder the components of packed pixels in groups of pixels: the loops of
    sse2.rs, avx2.rs and neon.rs, for any step that converts one group. *)
From Coq Require Import ZArith List Bool Lia ZifyBool ZifyNat.
Import ListNotations.
From Verif Require Import Base Exec Area Fmt Common Scalar Wrappers Simd Spec PixelFacts
  KernelBase ForwardProofs BackwardProofs SimdFacts VecForward ReorderProofs.
Open Scope Z_scope.

(** Byte [j] of a converted row; [f] gives the bytes of the source row. *)
Definition rowf (spf dpf : pixel_format) (f : Z -> Z) (j : Z) : Z :=
  let '(o1, o2, o3) := component_offsets spf in
  let o := bytes_per_pixel spf * (j / bytes_per_pixel dpf) in
  pixel_byte dpf (f (o + o1), f (o + o2), f (o + o3)) (j mod bytes_per_pixel dpf).

Lemma rowf_ext spf dpf f g j : (forall k, f k = g k) -> rowf spf dpf f j = rowf spf dpf g j.
Proof.
  intros H. unfold rowf. destruct (component_offsets spf) as [[o1 o2] o3]. rewrite !H. reflexivity.
Qed.
Lemma rowf_shift spf dpf f k j :
  0 < bytes_per_pixel dpf -> 0 <= j ->
  rowf spf dpf f (bytes_per_pixel dpf * k + j) = rowf spf dpf (fun i => f (bytes_per_pixel spf * k + i)) j.
Proof.
  intros P Hj. unfold rowf. destruct (component_offsets spf) as [[o1 o2] o3].
  set (d := bytes_per_pixel dpf) in *.
  assert (E1 : (d * k + j) / d = k + j / d) by (rewrite Z.add_comm, (Z.mul_comm d k), Z.div_add by lia; lia).
  assert (E2 : (d * k + j) mod d = j mod d) by (rewrite Z.add_comm, (Z.mul_comm d k), Z.mod_add by lia; lia).
  rewrite E1, E2, Z.mul_add_distr_l, <- !Z.add_assoc. reflexivity.
Qed.

Section Reorder.
Variable T : target.
Variable ms : list (list Z).
Variable dl : list nat.
Hypothesis HB : bytes_ok ms.

Notation exec := (exec T ms dl).
Notation runs := (runs T ms dl).
Notation fits := (fits ms dl).
Notation src_ok := (src_ok T ms dl).
Notation dst_ok := (dst_ok T ms dl).

Lemma rowf_pcol spf dpf src ss y j :
  rowf spf dpf (fun k => byte ms src (ss * y + k)) j
  = pixel_byte dpf (pcol ms spf src ss (j / bytes_per_pixel dpf) y) (j mod bytes_per_pixel dpf).
Proof.
  unfold rowf, pcol. destruct (component_offsets spf) as [[o1 o2] o3]. rewrite !Z.add_assoc. reflexivity.
Qed.

(** What a step that converts [W] pixels has to do. *)
Definition step_ok (spf dpf : pixel_format) (W : Z) (src dst : slice) (n : nat)
           (step : Z * Z -> M (Z * Z)) : Prop :=
  forall so do_, 0 <= so -> 0 <= do_ ->
  so + bytes_per_pixel spf * W <= cap ms dl src -> do_ + bytes_per_pixel dpf * W <= cap ms dl dst ->
  so + bytes_per_pixel spf * W < usz T -> do_ + bytes_per_pixel dpf * W < usz T ->
  runs (step (so, do_))
    (row n (s_off dst + do_) (bytes_per_pixel dpf * W) (rowf spf dpf (fun k => byte ms src (so + k))))
    (so + bytes_per_pixel spf * W, do_ + bytes_per_pixel dpf * W).

Section Line.
Variables (spf dpf : pixel_format) (W : Z) (src dst : slice) (n : nat).
Variable step : Z * Z -> M (Z * Z).
Hypothesis HW : 0 < W.
Hypothesis Ps : 0 < bytes_per_pixel spf.
Hypothesis Pd : 0 < bytes_per_pixel dpf.
Hypothesis Hs : src_ok src.
Hypothesis Hd : dst_ok dst n.
Hypothesis Hstep : step_ok spf dpf W src dst n step.

Notation sd := (bytes_per_pixel spf).
Notation dd := (bytes_per_pixel dpf).

Lemma runs_line_steps k so do_ :
  0 <= k -> 0 <= so -> 0 <= do_ ->
  so + sd * (W * k) <= cap ms dl src -> do_ + dd * (W * k) <= cap ms dl dst ->
  runs (loop (Z.to_nat k) (so, do_) step)
    (row n (s_off dst + do_) (dd * (W * k)) (rowf spf dpf (fun i => byte ms src (so + i))))
    (so + sd * (W * k), do_ + dd * (W * k)).
Proof.
  intros Hk Hso Hdo Ls Ld.
  assert (Us : cap ms dl src < usz T) by apply Hs. assert (Ud : cap ms dl dst < usz T) by apply Hd.
  assert (PS : 0 < sd * W) by nia. assert (PD : 0 < dd * W) by nia.
  pose proof (runs_loop0 T ms dl k (fun i => (so + sd * W * i, do_ + dd * W * i)) step
    (fun i => row n (s_off dst + do_ + dd * W * i) (dd * W)
                (fun j => rowf spf dpf (fun i => byte ms src (so + i)) (dd * W * i + j)))) as L.
  cbv beta in L. rewrite !Z.mul_0_r, !Z.add_0_r in L.
  rewrite !Z.mul_assoc in *.
  eapply runs_iff.
  - apply L; [|lia]. intros i Hi.
    assert (S1 : sd * W * (i + 1) <= sd * W * k) by (apply Z.mul_le_mono_nonneg_l; lia).
    assert (S2 : dd * W * (i + 1) <= dd * W * k) by (apply Z.mul_le_mono_nonneg_l; lia).
    assert (S3 : 0 <= sd * W * i) by (apply Z.mul_nonneg_nonneg; lia).
    assert (S4 : 0 <= dd * W * i) by (apply Z.mul_nonneg_nonneg; lia).
    rewrite !Z.mul_add_distr_l, !Z.mul_1_r in *.
    eapply runs_iff; [|].
    + rewrite !Z.add_assoc. apply Hstep; lia.
    + intros w. apply row_ext; [lia|lia|]. intros j Hj.
      rewrite <- (Z.mul_assoc dd W i), rowf_shift by lia.
      apply rowf_ext. intros q. f_equal. ring.
  - intros w. rewrite <- (row_chunks n (s_off dst + do_) (dd * W) (rowf spf dpf (fun i => byte ms src (so + i))) 0 k w) by lia.
    apply row_ext; try lia. intros; f_equal; lia.
Qed.

(** The pixels of all rows. *)
Lemma rows_out h w ss ds wr :
  (exists y, 0 <= y < h /\
    row n (s_off dst + ds * y) (dd * w) (rowf spf dpf (fun i => byte ms src (ss * y + i))) wr) <->
  in_areas [out_area dpf (pcol ms spf src ss) n dst ds h w] wr.
Proof.
  cbn [in_areas]. unfold wunion, wempty. rewrite out_rows.
  assert (E : forall y, row n (s_off dst + ds * y) (dd * w) (rowf spf dpf (fun i => byte ms src (ss * y + i))) wr <->
     row n (s_off dst + ds * y) (dd * w) (fun j => pixel_byte dpf (pcol ms spf src ss (j / dd) y) (j mod dd)) wr).
  { intros y. apply row_ext; auto. intros j _. apply rowf_pcol. }
  split.
  - intros (y & Hy & H). left. exists y. split; auto. apply E; auto.
  - intros [(y & Hy & H)|[]]. exists y. split; auto. apply E; auto.
Qed.

Lemma ceil_mul k : ((W * k + (W - 1)) / W) = k.
Proof. apply div_mul_add. lia. Qed.

(** Rows at [stride * i]. *)
Lemma runs_rows_mul k h ss ds :
  0 < k -> 0 < h -> fits src ss h (sd * (W * k)) -> fits dst ds h (dd * (W * k)) ->
  runs (for_ h (fun i =>
    so <- umul ss i ;;
    do_ <- umul ds i ;;
    loop (Z.to_nat ((W * k + (W - 1)) / W)) (so, do_) step ;;
    ret tt)) (in_areas [out_area dpf (pcol ms spf src ss) n dst ds h (W * k)]) tt.
Proof.
  intros Hk Hh Fs Fd. rewrite ceil_mul.
  assert (PS : 0 < sd * (W * k)) by (repeat apply Z.mul_pos_pos; lia).
  assert (PD : 0 < dd * (W * k)) by (repeat apply Z.mul_pos_pos; lia).
  assert (Us : cap ms dl src < usz T) by apply Hs. assert (Ud : cap ms dl dst < usz T) by apply Hd.
  eapply runs_iff.
  - apply runs_for with (P := fun y => row n (s_off dst + ds * y) (dd * (W * k))
      (rowf spf dpf (fun i => byte ms src (ss * y + i)))).
    intros y Hy.
    assert (0 <= ss * y /\ ss * y + sd * (W * k) <= cap ms dl src) by (destruct Fs; nia).
    assert (0 <= ds * y /\ ds * y + dd * (W * k) <= cap ms dl dst) by (destruct Fd; nia).
    eapply runs_bind0; [apply exec_umul; lia|].
    eapply runs_bind0; [apply exec_umul; lia|].
    eapply runs_bind1; [|apply exec_ret]. apply runs_line_steps; lia.
  - intros wr. apply rows_out.
Qed.

(** Rows one after the other. *)
Lemma runs_rows_add k h ss ds :
  0 < k -> 0 < h -> sd * (W * k) <= ss -> dd * (W * k) <= ds ->
  ss * h < usz T -> ds * h < usz T ->
  fits src ss h (sd * (W * k)) -> fits dst ds h (dd * (W * k)) ->
  runs (sw <- umul sd (W * k) ;; src_diff <- usub ss sw ;;
        dw <- umul dd (W * k) ;; dst_diff <- usub ds dw ;;
        loop (Z.to_nat h) (0, 0) (fun st_ =>
          '(so, do_) <- loop (Z.to_nat ((W * k + (W - 1)) / W)) st_ step ;;
          so' <- uadd so src_diff ;; do' <- uadd do_ dst_diff ;;
          ret (so', do')) ;;
        ret tt) (in_areas [out_area dpf (pcol ms spf src ss) n dst ds h (W * k)]) tt.
Proof.
  intros Hk Hh Hss Hds Os Od Fs Fd. rewrite ceil_mul.
  assert (PS : 0 < sd * (W * k)) by (repeat apply Z.mul_pos_pos; lia).
  assert (PD : 0 < dd * (W * k)) by (repeat apply Z.mul_pos_pos; lia).
  assert (ss <= ss * h) by nia. assert (ds <= ds * h) by nia.
  eapply runs_bind0; [apply exec_umul; lia|].
  eapply runs_bind0; [apply exec_usub; lia|].
  eapply runs_bind0; [apply exec_umul; lia|].
  eapply runs_bind0; [apply exec_usub; lia|].
  pose proof (runs_loop0 T ms dl h (fun y => (ss * y, ds * y))
    (fun st_ =>
          '(so, do_) <- loop (Z.to_nat k) st_ step ;;
          so' <- uadd so (ss - sd * (W * k)) ;; do' <- uadd do_ (ds - dd * (W * k)) ;;
          ret (so', do'))
    (fun y => row n (s_off dst + ds * y) (dd * (W * k))
      (rowf spf dpf (fun i => byte ms src (ss * y + i))))) as L.
  cbv beta in L. rewrite !Z.mul_0_r in L.
  eapply runs_iff.
  - eapply runs_bind1; [|apply exec_ret]. apply L; [|lia].
    intros y Hy.
    assert (0 <= ss * y /\ ss * y + sd * (W * k) <= cap ms dl src) by (destruct Fs; nia).
    assert (0 <= ds * y /\ ds * y + dd * (W * k) <= cap ms dl dst) by (destruct Fd; nia).
    assert (ss * (y + 1) <= ss * h /\ ds * (y + 1) <= ds * h) by nia.
    rewrite !Z.mul_add_distr_l, !Z.mul_1_r in *.
    eapply runs_bind1; [apply runs_line_steps; lia|]. cbv beta iota.
    eapply exec_bind0; [apply exec_uadd; lia|].
    eapply exec_bind0; [apply exec_uadd; lia|].
    eapply exec_eq; [apply exec_ret|reflexivity|]. apply f_equal2; lia.
  - intros wr. apply rows_out.
Qed.
End Line.

(** ** Registers *)
Lemma at_shift s i k : forall j, at_ ms s (i + k) j = at_ ms s i (k + j).
Proof. intros j. unfold at_. f_equal. lia. Qed.
Lemma loaded_shift s i k m : loaded m (at_ ms s (i + k)) = loaded m (fun j => at_ ms s i (k + j)).
Proof. unfold loaded. apply map_ext. apply at_shift. Qed.

Lemma runs_stn_fun dst n i F m : dst_ok dst n -> 0 <= i -> i + Z.of_nat m <= cap ms dl dst ->
  runs (stn dst i (map F (zseq 0 m))) (row n (s_off dst + i) (Z.of_nat m) F) tt.
Proof. intros. apply runs_stn_map; auto. Qed.
End Reorder.

(** Contract of the kernels: rows of [W * k] pixels. *)
Definition v11_ok (T : target) (W : Z) (spf dpf : pixel_format) (k : kernel_1_1) : Prop :=
  forall ms dl, bytes_ok ms -> forall w q h src ss dst n ds,
  0 < q -> w = W * q -> 0 < h ->
  src_ok T ms dl src -> dst_ok T ms dl dst n ->
  bytes_per_pixel spf * w <= ss -> bytes_per_pixel dpf * w <= ds ->
  ss * h < usz T -> ds * h < usz T ->
  fits ms dl src ss h (bytes_per_pixel spf * w) -> fits ms dl dst ds h (bytes_per_pixel dpf * w) ->
  runs T ms dl (k w h ss src ds dst)
    (in_areas [out_area dpf (pcol ms spf src ss) n dst ds h w]) tt.
