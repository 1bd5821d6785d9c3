(** The YCbCr to RGB kernels of sse2.rs. *)
From Coq Require Import ZArith List Bool Lia ZifyBool ZifyNat.
Import ListNotations.
From Verif Require Import Base Exec Area Fmt Common Scalar Wrappers Simd Vector Sse2 Spec SimdSpec PixelFacts
  KernelBase ForwardProofs BackwardProofs SimdFacts VecForward X86Forward VecBackward.
Open Scope Z_scope.

Lemma dup8 : dup_ok 8 i16_to_i16x2_8x.
Proof. intros F. reflexivity. Qed.

Lemma lo8 : lo_ok 8 (unpacklo 1 zero).
Proof. intros f H. rewrite be_bytes by auto. reflexivity. Qed.
Lemma hi8 : hi_ok 8 (unpackhi 1 zero).
Proof. intros f H. rewrite be_bytes by (intros k; apply H). reflexivity. Qed.

Lemma pack8 rev R G B :
  pack_i16x3_8x rev (lanes 8 R) (lanes 8 G) (lanes 8 B)
  = (map (fun j => pixel_byte (out4 rev) (c8 (R (j / 4)), c8 (G (j / 4)), c8 (B (j / 4))) (j mod 4)) (zseq 0 16),
     map (fun j => (fun j => pixel_byte (out4 rev) (c8 (R (j / 4)), c8 (G (j / 4)), c8 (B (j / 4))) (j mod 4)) (16 + j))
         (zseq 0 16)).
Proof.
  unfold pack_i16x3_8x, lanes.
  change (srli_epi16 (cmpeq_epi32 zero zero) 8) with (b16 (repeat 255 8)).
  destruct rev; cbv zeta; rewrite !packus_app; reflexivity.
Qed.

Section S.
Variable T : target.
Variable ms : list (list Z).
Variable dl : list nat.
Hypothesis HB : bytes_ok ms.

Lemma store8 rev : store_ok T ms dl (store_i16x3_8x rev) (out4 rev) 8.
Proof.
  intros dst n o R G B Hd Ho Hl.
  assert (E : bytes_per_pixel (out4 rev) = 4) by (destruct rev; reflexivity).
  unfold group_area. rewrite E in *. unfold store_i16x3_8x. rewrite pack8.
  apply (runs_stn2 T ms dl dst n o 16 16); auto.
Qed.

Lemma ld2_8 : ld2_ok T ms dl 8 unpack_ui8x2_i16be_8x.
Proof.
  intros s i Hs Hi Hl. unfold unpack_ui8x2_i16be_8x.
  eapply exec_bind0; [apply exec_load; auto; lia|].
  eapply exec_eq; [apply exec_ret|reflexivity|]. apply f_equal2.
  - apply (shl_low 8). reflexivity.
  - apply (shl_high 8); [apply at_bytes; auto|reflexivity].
Qed.
Lemma ld1_8 : ld1_ok T ms dl 8 unpack_ui8_i16be_8x.
Proof.
  intros s i Hs Hi Hl. unfold unpack_ui8_i16be_8x.
  eapply exec_bind0; [apply exec_load; auto; lia|].
  eapply exec_eq; [apply exec_ret|reflexivity|].
  rewrite be_bytes by (apply at_bytes; auto). reflexivity.
Qed.
Lemma ldlo_8 : ldlo_ok T ms dl 8 load_lo_8x (unpacklo 1 zero).
Proof.
  intros s i Hs Hi Hl. unfold load_lo_8x. eexists. split.
  - eapply exec_bind0; [apply exec_load; auto; lia|]. apply exec_ret.
  - rewrite be_bytes by (apply at_bytes; auto). reflexivity.
Qed.
End S.

Lemma out4_pos rev : 0 < bytes_per_pixel (out4 rev).
Proof. destruct rev; reflexivity. Qed.

Lemma nv12_to_bgra_sse2_ok T c rev : v21_ok T 16 x86_arith (out4 rev) c (nv12_to_bgra_sse2 c rev).
Proof.
  assert (E : nv12_to_bgra_sse2 c rev
    = vk21 8 (store_i16x3_8x rev) (bytes_per_pixel (out4 rev)) i16_to_i16x2_8x (unpacklo 1 zero) (unpackhi 1 zero)
           unpack_ui8x2_i16be_8x c) by (destruct rev; reflexivity).
  rewrite E. apply (vk21_ok T 8); auto using out4_pos, dup8, lo8, hi8, store8, ld2_8. lia.
Qed.
Lemma i420_to_bgra_sse2_ok T c rev : v420r_ok T 16 x86_arith (out4 rev) c (i420_to_bgra_sse2 c rev).
Proof.
  assert (E : i420_to_bgra_sse2 c rev
    = vk420r 8 (store_i16x3_8x rev) (bytes_per_pixel (out4 rev)) i16_to_i16x2_8x (unpacklo 1 zero) (unpackhi 1 zero)
           unpack_ui8_i16be_8x c) by (destruct rev; reflexivity).
  rewrite E. apply (vk420r_ok T 8); auto using out4_pos, dup8, lo8, hi8, store8, ld1_8. lia.
Qed.
Lemma i444_to_bgra_sse2_ok T c rev : v444r_ok T 8 x86_arith (out4 rev) c (i444_to_bgra_sse2 c rev).
Proof.
  assert (E : i444_to_bgra_sse2 c rev
    = vk444r 8 (store_i16x3_8x rev) (bytes_per_pixel (out4 rev)) load_lo_8x (unpacklo 1 zero) c)
    by (destruct rev; reflexivity).
  rewrite E. apply (vk444r_ok T 8); auto using out4_pos, store8, ldlo_8. lia.
Qed.
