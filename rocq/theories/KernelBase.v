(** Common facts used by the proofs about all kernels: index arithmetic, loads,
    sample arithmetic. *)
From Coq Require Import ZArith List Bool Lia ZifyBool ZifyNat.
Import ListNotations.
From Verif Require Import Base Exec Area Fmt Common Scalar Spec PixelFacts.
Open Scope Z_scope.

(** All source bytes are bytes. *)
Definition bytes_ok (ms : list (list Z)) : Prop :=
  forall n i, is_byte (nth i (nth n ms []) 0).

(** [rows] rows of [cols] bytes, [stride] apart, fit in the slice. *)
Definition fits ms dl (s : slice) (stride rows cols : Z) : Prop :=
  0 <= stride /\ (rows - 1) * stride + cols <= cap ms dl s.

Lemma fits_in ms dl s stride rows cols y j :
  fits ms dl s stride rows cols -> 0 <= y < rows -> 0 <= j < cols ->
  0 <= stride * y /\ stride * y + j < cap ms dl s.
Proof. intros [H1 H2] Hy Hj. split; nia. Qed.

Lemma fits_shift ms dl s stride rows cols x :
  fits ms dl s stride rows (x + cols) ->
  fits ms dl (Slice (s_plane s) (s_off s + x) (s_len s - x)) stride rows cols.
Proof. intros [H1 H2]. split; auto. rewrite cap_from. lia. Qed.

Lemma fits_sub ms dl s stride rows cols cols' :
  fits ms dl s stride rows cols -> cols' <= cols -> fits ms dl s stride rows cols'.
Proof. intros [H1 H2] H. split; lia. Qed.

Section Kernel.
Variable T : target.
Variable ms : list (list Z).
Variable dl : list nat.
Hypothesis HB : bytes_ok ms.

Notation exec := (exec T ms dl).
Notation runs := (runs T ms dl).

(** A source slice that lies in its buffer and is not longer than a Rust slice
    can be. *)
Definition src_ok (s : slice) : Prop := view_ok ms dl s /\ is_src s /\ cap ms dl s < usz T /\ big T = false.
Definition dst_ok (s : slice) (n : nat) : Prop := view_ok ms dl s /\ is_dst s n /\ cap ms dl s < usz T /\ big T = false.

Lemma byte_range s i : is_byte (byte ms s i).
Proof.
  unfold byte. destruct (s_plane s); [apply HB|]. unfold is_byte; lia.
Qed.

Lemma exec_wg_index x y w h :
  0 <= h * y -> 0 <= x * w -> h * y + x * w < usz T ->
  exec (wg_index x y w h) [] (h * y + x * w).
Proof.
  intros H1 H2 H3. unfold wg_index.
  eapply exec_bind0; [apply exec_umul; lia|].
  eapply exec_bind0; [apply exec_umul; lia|].
  apply exec_uadd; lia.
Qed.

Lemma exec_unpack2 s o : src_ok s -> 0 <= o -> o + 1 < cap ms dl s ->
  exec (unpack_ui8x2_i32 s o) [] (byte ms s o, byte ms s (o + 1)).
Proof.
  intros (H1 & H2 & _) H3 H4. unfold unpack_ui8x2_i32.
  eapply exec_bind0; [apply exec_ld; auto; lia|].
  eapply exec_bind0; [apply exec_ld; auto; lia|].
  apply exec_ret.
Qed.

(** The three components of the pixel at offset [o]. *)
Definition pixel3 (smp : sampler) (s : slice) (o : Z) : rgb :=
  let '(o0, o1, o2) := sampler_offsets smp in
  (byte ms s (o + o0), byte ms s (o + o1), byte ms s (o + o2)).

Definition sampler_depth (smp : sampler) : Z :=
  match smp with S_Argb => 4 | S_Bgra => 4 | S_Bgr => 3 end.

(** The fourth byte of a BGRA pixel is not read. *)
Definition spare (smp : sampler) : Z := match smp with S_Bgra => -1 | _ => 0 end.

Lemma exec_unpack3 smp s o : src_ok s -> 0 <= o -> o + sampler_depth smp + spare smp <= cap ms dl s ->
  exec (unpack_ui8x3_i32 smp s o) [] (pixel3 smp s o).
Proof.
  intros (H1 & H2 & _) H3 H4. unfold unpack_ui8x3_i32, pixel3.
  destruct smp; cbn [sampler_offsets sampler_depth spare] in *;
    (eapply exec_bind0; [apply exec_ld; auto; lia|];
     eapply exec_bind0; [apply exec_ld; auto; lia|];
     eapply exec_bind0; [apply exec_ld; auto; lia|];
     apply exec_ret).
Qed.

Lemma pixel3_range smp s o : exists r g b,
  pixel3 smp s o = (r, g, b) /\ is_byte r /\ is_byte g /\ is_byte b.
Proof.
  unfold pixel3. destruct (sampler_offsets smp) as [[o0 o1] o2].
  do 3 eexists. split; [reflexivity|]. repeat split; apply byte_range.
Qed.

Lemma exec_affine x y z ax ay az bw :
  0 <= x <= 1020 -> 0 <= y <= 1020 -> 0 <= z <= 1020 ->
  -65536 <= ax <= 65536 -> -65536 <= ay <= 65536 -> -65536 <= az <= 65536 ->
  0 <= bw <= 134217728 ->
  exec (affine_transform x y z ax ay az bw) [] (ax * x + ay * y + az * z + bw).
Proof.
  intros. unfold affine_transform.
  assert (-66846720 <= ax * x <= 66846720) by nia.
  assert (-66846720 <= ay * y <= 66846720) by nia.
  assert (-66846720 <= az * z <= 66846720) by nia.
  eapply exec_bind0; [apply exec_imul; lia|].
  eapply exec_bind0; [apply exec_imul; lia|].
  eapply exec_bind0; [apply exec_iadd; lia|].
  eapply exec_bind0; [apply exec_imul; lia|].
  eapply exec_bind0; [apply exec_iadd; lia|].
  apply exec_iadd; lia.
Qed.

Lemma exec_fwd_yb c : exec (fwd_yb c) [] (YB c).
Proof. intros m _. destruct c; reflexivity. Qed.
Lemma exec_fwd_zb c : exec (fwd_zb c (YB c)) [] (ZB c).
Proof. intros m _. destruct c; reflexivity. Qed.

Lemma exec_mulhi a b : is_byte a -> 0 <= b <= 65535 ->
  exec (mulhi_i32 a b) [] (a * b / 256).
Proof.
  intros Ha Hb. unfold is_byte in *. unfold mulhi_i32.
  eapply exec_bind0; [apply exec_imul; nia|].
  eapply exec_eq; [apply exec_ret|reflexivity|].
  rewrite Z.shiftr_div_pow2 by lia. reflexivity.
Qed.

Lemma bwd_coef_range c :
  (0 <= XXYM c <= 65535) /\ (0 <= RCRM c <= 65535) /\ (0 <= GCRM c <= 65535) /\
  (0 <= GCBM c <= 65535) /\ (0 <= BCBM c <= 65535) /\
  (0 <= RN c <= 65535) /\ (0 <= GP c <= 65535) /\ (0 <= BN c <= 65535).
Proof. destruct c; cbn; lia. Qed.

Lemma mulhi_range a b : is_byte a -> 0 <= b <= 65535 -> 0 <= a * b / 256 <= 65279.
Proof.
  intros Ha Hb. unfold is_byte in *. split; [apply Z.div_pos; nia|].
  assert (a * b <= 255 * 65535) by nia.
  apply Z.lt_succ_r. apply Z.div_lt_upper_bound; lia.
Qed.

(** The chroma terms of the backward kernels. *)
Definition chroma_terms (c : colorimetry) (cb cr : Z) : Z * Z * Z :=
  (cr * RCRM c / 256 - RN c,
   - (cb * GCBM c / 256) - cr * GCRM c / 256 + GP c,
   cb * BCBM c / 256 - BN c).

Lemma exec_bwd_chroma c cb cr : is_byte cb -> is_byte cr ->
  exec (bwd_chroma c cb cr) [] (chroma_terms c cb cr).
Proof.
  intros Hb Hr. unfold bwd_chroma, chroma_terms.
  destruct (bwd_coef_range c) as (_ & H1 & H2 & H3 & H4 & H5 & H6 & H7).
  pose proof (mulhi_range cr (RCRM c) Hr H1).
  pose proof (mulhi_range cb (GCBM c) Hb H3).
  pose proof (mulhi_range cr (GCRM c) Hr H2).
  pose proof (mulhi_range cb (BCBM c) Hb H4).
  eapply exec_bind0; [apply exec_mulhi; auto|].
  eapply exec_bind0; [apply exec_isub; lia|].
  eapply exec_bind0; [apply exec_mulhi; auto|].
  eapply exec_bind0; [apply exec_ineg; lia|].
  eapply exec_bind0; [apply exec_mulhi; auto|].
  eapply exec_bind0; [apply exec_isub; lia|].
  eapply exec_bind0; [apply exec_iadd; lia|].
  eapply exec_bind0; [apply exec_mulhi; auto|].
  eapply exec_bind0; [apply exec_isub; lia|].
  apply exec_ret.
Qed.

(** Bytes written by [bwd_pixel4] / [bwd_pixel3]: the specified colour. *)
Definition out4 (reversed : bool) : pixel_format := if reversed then Rgba else Bgra.

Lemma ycc_to_rgb_terms c l cb cr :
  let '(sr, sg, sb) := chroma_terms c cb cr in
  ycc_to_rgb (cs_of c) l cb cr =
  (clamp255 ((l * XXYM c / 256 + sr) / 64), clamp255 ((l * XXYM c / 256 + sg) / 64),
   clamp255 ((l * XXYM c / 256 + sb) / 64)).
Proof.
  unfold chroma_terms, ycc_to_rgb, rgb64.
  destruct c; cbn [cs_of rgb_coefs XXYM RCRM RN GCBM GCRM GP BCBM BN];
    apply f_equal2; try reflexivity; apply f_equal2; try reflexivity;
    apply f_equal, f_equal2; try reflexivity; lia.
Qed.

Lemma runs_bwd_pixel4 rev c s n o l cb cr :
  dst_ok s n -> is_byte l -> is_byte cb -> is_byte cr ->
  0 <= o -> o + 4 <= cap ms dl s ->
  let '(sr, sg, sb) := chroma_terms c cb cr in
  runs (bwd_pixel4 rev s o (l * XXYM c / 256) sr sg sb)
    (in_area (Area n (s_off s + o) 0 1 4
       (fun _ j => pixel_byte (out4 rev) (ycc_to_rgb (cs_of c) l cb cr) j))) tt.
Proof.
  intros (Hv & Hd & _) Hl Hb Hr Ho Hlen.
  pose proof (ycc_to_rgb_terms c l cb cr) as E.
  unfold chroma_terms in *. cbv beta iota zeta in E |- *. rewrite E. clear E.
  destruct (bwd_coef_range c) as (H0 & H1 & H2 & H3 & H4 & H5 & H6 & H7).
  pose proof (mulhi_range l (XXYM c) Hl H0).
  pose proof (mulhi_range cr (RCRM c) Hr H1).
  pose proof (mulhi_range cb (GCBM c) Hb H3).
  pose proof (mulhi_range cr (GCRM c) Hr H2).
  pose proof (mulhi_range cb (BCBM c) Hb H4).
  unfold bwd_pixel4.
  eapply runs_bind0; [apply exec_iadd; lia|].
  eapply runs_bind0; [apply exec_iadd; lia|].
  eapply runs_bind0; [apply exec_iadd; lia|].
  rewrite !fix_to_u8_sat_model by lia.
  set (R := clamp255 ((l * XXYM c / 256 + (cr * RCRM c / 256 - RN c)) / 64)).
  set (G := clamp255 ((l * XXYM c / 256 + (- (cb * GCBM c / 256) - cr * GCRM c / 256 + GP c)) / 64)).
  set (B := clamp255 ((l * XXYM c / 256 + (cb * BCBM c / 256 - BN c)) / 64)).
  clearbody R G B. unfold pack_ui8x3.
  destruct rev; cbn [out4].
  - eapply runs_iff.
    + eapply runs_bind; [eapply runs_bind; [eapply runs_st; eauto; lia|eapply runs_st; eauto; lia]|].
      eapply runs_bind; [eapply runs_st; eauto; lia|]. eapply runs_st; eauto; lia.
    + intros w. unfold wunion, in_area; cbn. split.
      * intros [[->| ->]|[->| ->]]; exists 0.
        { exists 0. repeat split; try lia; do 2 f_equal; lia. }
        { exists 2. repeat split; try lia; do 2 f_equal; lia. }
        { exists 1. repeat split; try lia; do 2 f_equal; lia. }
        { exists 3. repeat split; try lia; do 2 f_equal; lia. }
      * intros (y & j & Hy & Hj & ->). replace y with 0 by lia.
        assert (j = 0 \/ j = 1 \/ j = 2 \/ j = 3) as [->|[->|[->| ->]]] by lia; cbn;
          [left; left|right; left|left; right|right; right]; do 2 f_equal; lia.
  - eapply runs_iff.
    + eapply runs_bind; [eapply runs_bind; [eapply runs_st; eauto; lia|eapply runs_st; eauto; lia]|].
      eapply runs_bind; [eapply runs_st; eauto; lia|]. eapply runs_st; eauto; lia.
    + intros w. unfold wunion, in_area; cbn. split.
      * intros [[->| ->]|[->| ->]]; exists 0.
        { exists 0. repeat split; try lia; do 2 f_equal; lia. }
        { exists 2. repeat split; try lia; do 2 f_equal; lia. }
        { exists 1. repeat split; try lia; do 2 f_equal; lia. }
        { exists 3. repeat split; try lia; do 2 f_equal; lia. }
      * intros (y & j & Hy & Hj & ->). replace y with 0 by lia.
        assert (j = 0 \/ j = 1 \/ j = 2 \/ j = 3) as [->|[->|[->| ->]]] by lia; cbn;
          [left; left|right; left|left; right|right; right]; do 2 f_equal; lia.
Qed.

Lemma runs_bwd_pixel3 c s n o l cb cr :
  dst_ok s n -> is_byte l -> is_byte cb -> is_byte cr ->
  0 <= o -> o + 3 <= cap ms dl s ->
  let '(sr, sg, sb) := chroma_terms c cb cr in
  runs (bwd_pixel3 s o (l * XXYM c / 256) sr sg sb)
    (in_area (Area n (s_off s + o) 0 1 3
       (fun _ j => pixel_byte Rgb (ycc_to_rgb (cs_of c) l cb cr) j))) tt.
Proof.
  intros (Hv & Hd & _) Hl Hb Hr Ho Hlen.
  pose proof (ycc_to_rgb_terms c l cb cr) as E.
  unfold chroma_terms in *. cbv beta iota zeta in E |- *. rewrite E. clear E.
  destruct (bwd_coef_range c) as (H0 & H1 & H2 & H3 & H4 & H5 & H6 & H7).
  pose proof (mulhi_range l (XXYM c) Hl H0).
  pose proof (mulhi_range cr (RCRM c) Hr H1).
  pose proof (mulhi_range cb (GCBM c) Hb H3).
  pose proof (mulhi_range cr (GCRM c) Hr H2).
  pose proof (mulhi_range cb (BCBM c) Hb H4).
  unfold bwd_pixel3.
  eapply runs_bind0; [apply exec_iadd; lia|].
  eapply runs_bind0; [apply exec_iadd; lia|].
  eapply runs_bind0; [apply exec_iadd; lia|].
  rewrite !fix_to_u8_sat_model by lia.
  set (R := clamp255 ((l * XXYM c / 256 + (cr * RCRM c / 256 - RN c)) / 64)).
  set (G := clamp255 ((l * XXYM c / 256 + (- (cb * GCBM c / 256) - cr * GCRM c / 256 + GP c)) / 64)).
  set (B := clamp255 ((l * XXYM c / 256 + (cb * BCBM c / 256 - BN c)) / 64)).
  clearbody R G B. unfold pack_rgb.
  eapply runs_iff.
  + eapply runs_bind; [eapply runs_st; eauto; lia|].
    eapply runs_bind; [eapply runs_st; eauto; lia|]. eapply runs_st; eauto; lia.
  + intros w. unfold wunion, in_area; cbn. split.
    * intros [->|[->| ->]]; exists 0.
      { exists 0. repeat split; try lia; do 2 f_equal; lia. }
      { exists 1. repeat split; try lia; do 2 f_equal; lia. }
      { exists 2. repeat split; try lia; do 2 f_equal; lia. }
    * intros (y & j & Hy & Hj & ->). replace y with 0 by lia.
      assert (j = 0 \/ j = 1 \/ j = 2) as [->|[->| ->]] by lia; cbn;
        [left|right; left|right; right]; do 2 f_equal; lia.
Qed.

End Kernel.
