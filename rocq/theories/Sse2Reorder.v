(** The reordering kernel of sse2.rs. *)
From Coq Require Import ZArith List Bool Lia ZifyBool ZifyNat.
Import ListNotations.
From Verif Require Import Base Exec Area Fmt Common Scalar Wrappers Simd Vector Sse2 Spec PixelFacts
  KernelBase ForwardProofs BackwardProofs SimdFacts VecForward Bytes ReorderProofs VecReorder.
Open Scope Z_scope.

Lemma srli8_cons a b t : is_byte a -> is_byte b ->
  srli_epi16 (a :: b :: t) 8 = b :: 0 :: srli_epi16 t 8.
Proof.
  intros Ha Hb. unfold srli_epi16. cbn [w16 map]. unfold b16. cbn [flat_map to_bytes app].
  change (2 ^ 8) with 256. destruct (byte_cons a b Ha) as [_ ->]. unfold is_byte in Hb.
  rewrite Z.div_small, !Z.mod_small by lia. reflexivity.
Qed.
Lemma slli8_cons a b t : is_byte a -> is_byte b ->
  slli_epi16 (a :: b :: t) 8 = 0 :: a :: slli_epi16 t 8.
Proof.
  intros Ha Hb. unfold slli_epi16. cbn [w16 map]. unfold b16. cbn [flat_map to_bytes app].
  change (2 ^ 8) with 256. rewrite Z.mod_mul, Z.div_mul by lia.
  destruct (byte_cons a b Ha) as [-> _]. reflexivity.
Qed.

(** The bytes of four RGB pixels in the low 12 bytes. *)
Lemma rgb_to_bgra_4x_bytes b0 b1 b2 b3 b4 b5 b6 b7 b8 b9 b10 b11 b12 b13 b14 b15 :
  is_byte b0 -> is_byte b1 -> is_byte b2 -> is_byte b3 -> is_byte b4 -> is_byte b5 -> is_byte b6 ->
  is_byte b7 -> is_byte b8 -> is_byte b9 -> is_byte b10 -> is_byte b11 ->
  rgb_to_bgra_4x [b0; b1; b2; b3; b4; b5; b6; b7; b8; b9; b10; b11; b12; b13; b14; b15]
  = [b2; b1; b0; 255; b5; b4; b3; 255; b8; b7; b6; 255; b11; b10; b9; 255].
Proof.
  intros. unfold rgb_to_bgra_4x. cbv zeta.
  assert (E : or_si (unpacklo 8
       (unpacklo 4 (slli_si128 [b0; b1; b2; b3; b4; b5; b6; b7; b8; b9; b10; b11; b12; b13; b14; b15] 1)
          (srli_si128 [b0; b1; b2; b3; b4; b5; b6; b7; b8; b9; b10; b11; b12; b13; b14; b15] 2))
       (unpacklo 4 (srli_si128 [b0; b1; b2; b3; b4; b5; b6; b7; b8; b9; b10; b11; b12; b13; b14; b15] 5)
          (srli_si128 [b0; b1; b2; b3; b4; b5; b6; b7; b8; b9; b10; b11; b12; b13; b14; b15] 8)))
     (set1_epi32 4 0xff) = [255; b0; b1; b2; 255; b3; b4; b5; 255; b6; b7; b8; 255; b9; b10; b11]).
  { lazy -[Z.lor]. rewrite !Z.lor_0_r, !lor_255 by first [assumption | unfold is_byte; lia]. reflexivity. }
  rewrite E. clear E.
  assert (I : is_byte 255) by (unfold is_byte; lia).
  rewrite !srli8_cons, !slli8_cons by auto.
  change (srli_epi16 [] 8) with (@nil Z). change (slli_epi16 [] 8) with (@nil Z).
  unfold or_si. cbn [Simd.map2]. rewrite !Z.lor_0_r. reflexivity.
Qed.

Lemma four f x : all_bytes f -> (exists a b c d, x = [f 0; f 1; f 2; f 3; f 4; f 5; f 6; f 7; f 8; f 9; f 10; f 11; a; b; c; d]) ->
  rgb_to_bgra_4x x = map (rowf Rgb Bgra f) (zseq 0 16).
Proof.
  intros H (a & b & c & d & ->). rewrite rgb_to_bgra_4x_bytes by apply H. reflexivity.
Qed.

(** The middle groups of pixels are put together from two loads. *)
Lemma blend1 f : all_bytes f ->
  or_si (and_si (shuffle_epi32 (loaded 16 f) (mm_shuffle 0 0 0 3)) (set_epi32 [0; 0; 0; -1]))
        (andnot_si (set_epi32 [0; 0; 0; -1])
           (shuffle_epi32 (loaded 16 (fun k => f (16 + k))) (mm_shuffle 0 1 0 0)))
  = [f 12; f 13; f 14; f 15; f 16; f 17; f 18; f 19; f 20; f 21; f 22; f 23; f 16; f 17; f 18; f 19].
Proof.
  intros H. change (mm_shuffle 0 0 0 3) with 3. change (mm_shuffle 0 1 0 0) with 16.
  lazy -[Z.lor Z.land]. rewrite !Z.land_0_r, !Z.land_0_l, !(Z.land_comm 255), !land_255 by apply H.

  rewrite ?Z.lor_0_r, ?Z.lor_0_l.
  reflexivity.
Qed.
Lemma blend2 f : all_bytes f ->
  or_si (and_si (shuffle_epi32 (loaded 16 (fun k => f (16 + k))) (mm_shuffle 0 0 3 2)) (set_epi32 [0; 0; -1; -1]))
        (andnot_si (set_epi32 [0; 0; -1; -1])
           (shuffle_epi32 (loaded 16 (fun k => f (32 + k))) (mm_shuffle 1 0 0 0)))
  = [f 24; f 25; f 26; f 27; f 28; f 29; f 30; f 31; f 32; f 33; f 34; f 35; f 36; f 37; f 38; f 39].
Proof.
  intros H. change (mm_shuffle 0 0 3 2) with 14. change (mm_shuffle 1 0 0 0) with 64.
  lazy -[Z.lor Z.land]. rewrite !Z.land_0_r, !Z.land_0_l, !(Z.land_comm 255), !land_255 by apply H.
  rewrite ?Z.lor_0_r, ?Z.lor_0_l. reflexivity.
Qed.

Section S.
Variable T : target.
Variable ms : list (list Z).
Variable dl : list nat.
Hypothesis HB : bytes_ok ms.

Lemma rgb_to_bgra_step16_ok src dst n :
  src_ok T ms dl src -> dst_ok T ms dl dst n ->
  step_ok T ms dl Rgb Bgra 16 src dst n (rgb_to_bgra_step16 src dst).
Proof.
  intros Hs Hd so do_ Hso Hdo. change (bytes_per_pixel Rgb * 16) with 48. change (bytes_per_pixel Bgra * 16) with 64.
  intros Ls Ld Us Ud. unfold rgb_to_bgra_step16, LANE_COUNT.
  assert (Hf : all_bytes (at_ ms src so)) by (apply at_bytes; auto).
  eapply runs_bind0; [apply exec_load; auto; lia|].
  eapply runs_bind0; [apply exec_load; auto; lia|].
  eapply runs_bind0; [apply exec_load; auto; lia|]. cbv zeta.
  rewrite !(loaded_shift ms src so).
  change (at_ ms src so) with (fun j => at_ ms src so j) at 1.
  set (f := at_ ms src so) in *. rewrite (blend1 f Hf), (blend2 f Hf).
  set (F := rowf Rgb Bgra (fun k => byte ms src (so + k))).
  rewrite (four f (loaded 16 f)) by (auto; do 4 eexists; reflexivity).
  rewrite (four (fun k => f (12 + k))) by (first [intros k; apply Hf | do 4 eexists; reflexivity]).
  rewrite (four (fun k => f (24 + k))) by (first [intros k; apply Hf | do 4 eexists; reflexivity]).
  rewrite (four (fun k => f (36 + k))) by (first [intros k; apply Hf | do 4 eexists; reflexivity]).
  eapply runs_iff.
  - eapply runs_bind; [apply runs_stn_fun; eauto; lia|].
    eapply runs_bind; [apply runs_stn_fun; eauto; lia|].
    eapply runs_bind; [apply runs_stn_fun; eauto; lia|].
    eapply runs_bind1; [apply runs_stn_fun; eauto; lia|].
    eapply exec_bind0; [apply exec_uadd; lia|].
    eapply exec_bind0; [apply exec_uadd; lia|].
    apply exec_ret.
  - intros w. unfold wunion. change 64 with (16 + (16 + (16 + 16))).
    rewrite !row_app by lia. change (Z.of_nat 16) with 16.
    apply or_iff; [|apply or_iff; [|apply or_iff]]; apply row_ext; try lia; intros j Hj;
      unfold F, f, at_; try reflexivity.
    + etransitivity; [symmetry; apply (rowf_shift Rgb Bgra (fun k => byte ms src (so + k)) 4 j); (reflexivity || lia)|].
      f_equal; change (bytes_per_pixel Bgra) with 4; lia.
    + etransitivity; [symmetry; apply (rowf_shift Rgb Bgra (fun k => byte ms src (so + k)) 8 j); (reflexivity || lia)|].
      f_equal; change (bytes_per_pixel Bgra) with 4; lia.
    + etransitivity; [symmetry; apply (rowf_shift Rgb Bgra (fun k => byte ms src (so + k)) 12 j); (reflexivity || lia)|].
      f_equal; change (bytes_per_pixel Bgra) with 4; lia.
Qed.
End S.

Lemma rgb_to_bgra_sse2_ok T : v11_ok T 16 Rgb Bgra rgb_to_bgra_sse2.
Proof.
  intros ms dl HB w q h src ss dst n ds Hq Hw Hh Hs Hd Hss Hds Os Od Fs Fd. subst w.
  apply (runs_rows_add T ms dl Rgb Bgra 16 src dst n); auto; try reflexivity.
  apply rgb_to_bgra_step16_ok; auto.
Qed.
