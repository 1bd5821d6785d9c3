(** The YCbCr to RGB kernels of avx2.rs. *)
From Coq Require Import ZArith List Bool Lia ZifyBool ZifyNat.
Import ListNotations.
From Verif Require Import Base Exec Area Fmt Common Scalar Wrappers Simd Vector Avx2 Spec SimdSpec PixelFacts
  KernelBase ForwardProofs BackwardProofs SimdFacts VecForward X86Forward VecBackward.
Open Scope Z_scope.

Lemma dup16 : dup_ok 16 i16_to_i16x2_16x.
Proof. intros F. reflexivity. Qed.

Lemma lo16 : lo_ok 16 luma_lo.
Proof. intros f H. rewrite be_bytes by auto. reflexivity. Qed.
Lemma hi16 : hi_ok 16 luma_hi.
Proof. intros f H. rewrite be_bytes by (intros k; apply H). reflexivity. Qed.

Lemma lanes16 F : lanes 16 F = lanes 8 F ++ lanes 8 (fun k => F (8 + k)).
Proof. unfold lanes. rewrite <- b16_app. reflexivity. Qed.
Lemma lanes8_length F : length (lanes 8 F) = 16%nat.
Proof. unfold lanes. rewrite b16_length. reflexivity. Qed.

Lemma packus16 F G :
  halves2 packus_epi16 (lanes 16 F) (lanes 16 G)
  = (map (fun k => c8 (F k)) (zseq 0 8) ++ map (fun k => c8 (G k)) (zseq 0 8))
    ++ (map (fun k => c8 (F k)) (zseq 8 8) ++ map (fun k => c8 (G k)) (zseq 8 8)).
Proof.
  rewrite !lanes16, (halves2_app packus_epi16) by apply lanes8_length.
  unfold lanes. rewrite !packus_app. reflexivity.
Qed.

Definition px_at (pf : pixel_format) (R G B : Z -> Z) (j : Z) : Z :=
  let d := bytes_per_pixel pf in
  pixel_byte pf (c8 (R (j / d)), c8 (G (j / d)), c8 (B (j / d))) (j mod d).

Lemma pack16 rev R G B :
  pack_i16x3_16x rev (lanes 16 R) (lanes 16 G) (lanes 16 B)
  = (map (px_at (out4 rev) R G B) (zseq 0 32), map (fun j => px_at (out4 rev) R G B (32 + j)) (zseq 0 32)).
Proof.
  unfold pack_i16x3_16x.
  change (srli_epi16 (cmpeq_epi32 zero zero) 8) with (lanes 16 (fun _ => 255)).
  destruct rev; cbv zeta; rewrite !packus16; reflexivity.
Qed.

Lemma pack_rgb16 R G B :
  pack_rgb_16x (lanes 16 R) (lanes 16 G) (lanes 16 B)
  = (map (fun j => px_at Rgb R G B (16 + j)) (zseq 0 32), map (px_at Rgb R G B) (zseq 0 32)).
Proof.
  unfold pack_rgb_16x. change (shuffle 2 3 1 0) with 180. change (shuffle 3 3 2 2) with 250.
  cbv zeta. rewrite !packus16.
  lazy -[c8 Z.lor]. rewrite ?Z.lor_0_r, ?Z.lor_0_l. reflexivity.
Qed.

Section S.
Variable T : target.
Variable ms : list (list Z).
Variable dl : list nat.
Hypothesis HB : bytes_ok ms.

Lemma store16 rev : store_ok T ms dl (store_i16x3_16x rev) (out4 rev) 16.
Proof.
  intros dst n o R G B Hd Ho Hl.
  assert (E : bytes_per_pixel (out4 rev) = 4) by (destruct rev; reflexivity).
  unfold store_i16x3_16x. rewrite pack16. unfold group_area. rewrite E in *.
  eapply runs_iff; [apply (runs_stn2 T ms dl dst n o 32 32); auto|].
  intros w. apply area_ext'; try reflexivity. intros r j _ _. unfold px_at. rewrite E. reflexivity.
Qed.

(** The two stores of [store_rgb_16x] overlap; both write the same bytes there. *)
Lemma store_rgb16 : store_ok T ms dl store_rgb_16x Rgb 16.
Proof.
  intros dst n o R G B Hd Ho Hl. unfold group_area. change (bytes_per_pixel Rgb) with 3 in *.
  unfold store_rgb_16x. rewrite pack_rgb16.
  set (F := px_at Rgb R G B). eapply runs_iff.
  - eapply runs_bind; [apply runs_stn_map; eauto; lia|]. apply runs_stn_map; eauto; lia.
  - intros w. unfold wunion. change (Z.of_nat 32) with (16 + 16). change (3 * Z.of_nat 16) with (16 + (16 + 16)).
    rewrite !area_cols by lia.
    replace (s_off dst + (o + 16)) with (s_off dst + o + 16) by lia. unfold F, px_at.
    tauto.
Qed.

Lemma ld2_16 : ld2_ok T ms dl 16 unpack_ui8x2_i16be_16x.
Proof.
  intros s i Hs Hi Hl. unfold unpack_ui8x2_i16be_16x.
  eapply exec_bind0; [apply exec_load; auto; lia|].
  eapply exec_eq; [apply exec_ret|reflexivity|]. apply f_equal2.
  - apply (shl_low 16). reflexivity.
  - apply (shl_high 16); [apply at_bytes; auto|reflexivity].
Qed.
Lemma ld1_16 : ld1_ok T ms dl 16 unpack_ui8_i16be_16x.
Proof.
  intros s i Hs Hi Hl. unfold unpack_ui8_i16be_16x.
  eapply exec_bind0; [apply exec_load; auto; lia|].
  eapply exec_eq; [apply exec_ret|reflexivity|].
  rewrite be_bytes by (apply at_bytes; auto). reflexivity.
Qed.
Lemma ldlo_16 : ldlo_ok T ms dl 16 load_lo_16x luma_lo.
Proof.
  intros s i Hs Hi Hl. unfold load_lo_16x. eexists. split.
  - eapply exec_bind0; [apply exec_load; auto; lia|]. apply exec_ret.
  - rewrite be_bytes by (apply at_bytes; auto). reflexivity.
Qed.
End S.

Lemma out4_pos rev : 0 < bytes_per_pixel (out4 rev).
Proof. destruct rev; reflexivity. Qed.

Lemma nv12_to_bgra_avx2_ok T c rev : v21_ok T 32 x86_arith (out4 rev) c (nv12_to_bgra_avx2 c rev).
Proof.
  assert (E : nv12_to_bgra_avx2 c rev
    = vk21 16 (store_i16x3_16x rev) (bytes_per_pixel (out4 rev)) i16_to_i16x2_16x luma_lo luma_hi
           unpack_ui8x2_i16be_16x c) by (destruct rev; reflexivity).
  rewrite E. apply (vk21_ok T 16); auto using out4_pos, dup16, lo16, hi16, store16, ld2_16. lia.
Qed.
Lemma nv12_to_rgb_avx2_ok T c : v21_ok T 32 x86_arith Rgb c (nv12_to_rgb_avx2 c).
Proof.
  assert (E : nv12_to_rgb_avx2 c
    = vk21 16 store_rgb_16x (bytes_per_pixel Rgb) i16_to_i16x2_16x luma_lo luma_hi
           unpack_ui8x2_i16be_16x c) by reflexivity.
  rewrite E. apply (vk21_ok T 16); auto using dup16, lo16, hi16, store_rgb16, ld2_16; [lia|reflexivity].
Qed.
Lemma i420_to_bgra_avx2_ok T c rev : v420r_ok T 32 x86_arith (out4 rev) c (i420_to_bgra_avx2 c rev).
Proof.
  assert (E : i420_to_bgra_avx2 c rev
    = vk420r 16 (store_i16x3_16x rev) (bytes_per_pixel (out4 rev)) i16_to_i16x2_16x luma_lo luma_hi
           unpack_ui8_i16be_16x c) by (destruct rev; reflexivity).
  rewrite E. apply (vk420r_ok T 16); auto using out4_pos, dup16, lo16, hi16, store16, ld1_16. lia.
Qed.
Lemma i444_to_bgra_avx2_ok T c rev : v444r_ok T 16 x86_arith (out4 rev) c (i444_to_bgra_avx2 c rev).
Proof.
  assert (E : i444_to_bgra_avx2 c rev
    = vk444r 16 (store_i16x3_16x rev) (bytes_per_pixel (out4 rev)) load_lo_16x luma_lo c)
    by (destruct rev; reflexivity).
  rewrite E. apply (vk444r_ok T 16); auto using out4_pos, store16, ldlo_16. lia.
Qed.
