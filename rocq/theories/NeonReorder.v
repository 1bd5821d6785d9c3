(** The reordering kernels of neon.rs. *)
From Coq Require Import ZArith List Bool Lia ZifyBool ZifyNat.
Import ListNotations.
From Verif Require Import Base Exec Area Fmt Common Scalar Wrappers Simd Vector Neon Spec PixelFacts
  KernelBase ForwardProofs BackwardProofs SimdFacts VecForward ReorderProofs VecReorder.
Open Scope Z_scope.

Section S.
Variable T : target.
Variable ms : list (list Z).
Variable dl : list nat.
Hypothesis HB : bytes_ok ms.

Lemma step16_ok spf dpf m d out src dst n :
  bytes_per_pixel spf = Z.of_nat m -> bytes_per_pixel dpf = Z.of_nat d ->
  (forall l, length (out l) = d) ->
  (forall f, interleave 16 (out (loaded (m * 16) f)) = map (rowf spf dpf f) (zseq 0 (d * 16))) ->
  src_ok T ms dl src -> dst_ok T ms dl dst n ->
  step_ok T ms dl spf dpf 16 src dst n (reorder_step16 m out src dst).
Proof.
  intros Es Ed Hl Ho Hs Hd so do_ Hso Hdo Ls Ld Us Ud. rewrite Es, Ed in *.
  unfold reorder_step16, zlen, LANE_COUNT.
  eapply runs_bind0; [apply exec_load; auto; lia|]. cbv zeta. rewrite Ho, Hl.
  eapply runs_iff.
  - eapply runs_bind1; [apply runs_stn_fun; eauto; lia|].
    eapply exec_bind0; [apply exec_uadd; lia|].
    eapply exec_bind0; [apply exec_uadd; lia|].
    apply exec_ret.
  - intros w. apply row_ext; auto. lia.
Qed.
End S.

Ltac neon_reorder T spf dpf m d :=
  let H := fresh in
  intros ms dl HB w q h src ss dst n ds Hq Hw Hh Hs Hd Hss Hds Os Od Fs Fd; subst w;
  pose proof (fun out H1 H2 => step16_ok T ms dl spf dpf m d out src dst n eq_refl eq_refl H1 H2 Hs Hd) as H;
  apply (runs_rows_mul T ms dl spf dpf 16 src dst n); auto; try reflexivity;
  apply H; reflexivity.

Lemma bgr_to_rgb_neon_ok T : v11_ok T 16 Bgr Rgb bgr_to_rgb_neon.
Proof. neon_reorder T Bgr Rgb 3%nat 3%nat. Qed.
Lemma bgra_to_rgb_neon_ok T : v11_ok T 16 Bgra Rgb bgra_to_rgb_neon.
Proof. neon_reorder T Bgra Rgb 4%nat 3%nat. Qed.
Lemma rgb_to_bgra_neon_ok T : v11_ok T 16 Rgb Bgra rgb_to_bgra_neon.
Proof. neon_reorder T Rgb Bgra 3%nat 4%nat. Qed.
