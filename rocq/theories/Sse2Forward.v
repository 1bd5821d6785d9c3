(** The RGB to YCbCr kernels of sse2.rs. *)
From Coq Require Import ZArith List Bool Lia ZifyBool ZifyNat.
Import ListNotations.
From Verif Require Import Base Exec Area Fmt Common Scalar Wrappers Simd Vector Sse2 Spec PixelFacts
  KernelBase ForwardProofs SimdFacts VecForward X86Forward.
Open Scope Z_scope.

Definition rgb4 (smp : sampler) (f : Z -> Z) : list rgb :=
  [gpx smp f 0; gpx smp f 1; gpx smp f 2; gpx smp f 3].

Lemma rgb4_ok smp f p : all_bytes f -> In p (rgb4 smp f) -> rgb_ok 255 p.
Proof. intros H Hp. cbn in Hp. decompose [or] Hp; subst; try apply gpx_ok; auto; contradiction. Qed.

Lemma unpack4 smp f : all_bytes f ->
  unpack_ui8x3_i16x2_4x smp (loaded 16 f)
  = (b16 (pairs fst3 snd3 (rgb4 smp f)), b16 (pairs thd3 snd3 (rgb4 smp f))).
Proof.
  intros H. unfold unpack_ui8x3_i16x2_4x. destruct smp.
  - change (loaded 16 f) with (quads [(f 0, f 1, f 2, f 3); (f 4, f 5, f 6, f 7);
      (f 8, f 9, f 10, f 11); (f 12, f 13, f 14, f 15)]).
    cbv zeta. edestruct unpack_argb as [-> ->]; [repeat constructor; apply H|]. reflexivity.
  - change (loaded 16 f) with (quads [(f 0, f 1, f 2, f 3); (f 4, f 5, f 6, f 7);
      (f 8, f 9, f 10, f 11); (f 12, f 13, f 14, f 15)]).
    cbv zeta. edestruct unpack_bgra as [-> ->]; [repeat constructor; apply H|]. reflexivity.
  - cbv zeta.
    replace (unpacklo 8 (unpacklo 4 (loaded 16 f) (srli_si128 (loaded 16 f) 3))
                        (unpacklo 4 (srli_si128 (loaded 16 f) 6) (srli_si128 (loaded 16 f) 9)))
      with (quads [(f 0, f 1, f 2, f 3); (f 3, f 4, f 5, f 6);
                   (f 6, f 7, f 8, f 9); (f 9, f 10, f 11, f 12)]) by reflexivity.
    edestruct unpack_bgra as [-> ->]; [repeat constructor; apply H|]. reflexivity.
Qed.

Lemma pack4 {A} (F : A -> Z) a b c d :
  pack_i32_4x (b32 (map F [a; b; c; d])) = map (fun p => pack32 (F p)) [a; b; c; d].
Proof. unfold pack_i32_4x. cbv zeta. rewrite pack_lanes. reflexivity. Qed.

(** Luma and full-resolution chroma of one row. *)
Definition row1 (smp : sampler) (weights : reg * reg * reg) (l : list Z) : list Z :=
  let '(rg, bg) := unpack_ui8x3_i16x2_4x smp l in
  pack_i32_4x (fix_to_i32_4x (affine_transform_4x rg bg weights) FIX16).

Lemma row1_lanes smp f a0 x0 y0 a1 x1 y1 k (V : rgb -> Z) :
  all_bytes f ->
  to_bytes 4 a0 = to_bytes 2 y0 ++ to_bytes 2 x0 -> to_bytes 4 a1 = to_bytes 2 y1 ++ to_bytes 2 x1 ->
  (forall p, rgb_ok 255 p ->
     pack32 (i32 (i16 (fst3 p) * i16 y0 + i16 (snd3 p) * i16 x0
               + (i16 (thd3 p) * i16 y1 + i16 (snd3 p) * i16 x1) + k) / 2 ^ FIX16) = V p) ->
  row1 smp (set1_epi32 4 a0, set1_epi32 4 a1, set1_epi32 4 k) (loaded 16 f)
  = map (fun j => V (gpx smp f j)) (zseq 0 4).
Proof.
  intros H H0 H1 HV. unfold row1. rewrite unpack4 by auto.
  unfold affine_transform_4x, fix_to_i32_4x.
  rewrite !(set1_map 4 _ (rgb4 smp f)) by reflexivity.
  rewrite (b32_pairs (fun _ => a0) (fun _ => x0) (fun _ => y0)) by auto.
  rewrite (b32_pairs (fun _ => a1) (fun _ => x1) (fun _ => y1)) by auto.
  rewrite affine_lanes, srai32_map. unfold rgb4. rewrite pack4.
  transitivity (map V (rgb4 smp f)); [|reflexivity].
  apply map_ext_in. intros p Hp. apply HV. eapply rgb4_ok; eauto.
Qed.

Definition fy (smp : sampler) (c : colorimetry) := row1 smp (y_weights_4x c).
Definition fu4 (smp : sampler) (c : colorimetry) := row1 smp (u_weights_4x c).
Definition fv4 (smp : sampler) (c : colorimetry) := row1 smp (v_weights_4x c).

Lemma fy_sse2 smp c : fy_ok 4 16 spec_arith smp (cs_of c) (fy smp c).
Proof.
  intros f H. eapply row1_lanes; auto; [apply fw0|apply fw1|].
  intros p Hp. rewrite fw6. apply luma_lane; auto.
Qed.
Lemma fu4_sse2 smp c : fu4_ok 4 16 spec_arith smp (cs_of c) (fu4 smp c).
Proof. intros f H. eapply row1_lanes; auto; [apply fw3|apply fw5|]. apply cb_lane. Qed.
Lemma fv4_sse2 smp c : fv4_ok 4 16 spec_arith smp (cs_of c) (fv4 smp c).
Proof. intros f H. eapply row1_lanes; auto; [apply fw2|apply fw4|]. apply cr_lane. Qed.

(** Chroma of two rows: the register before packing. *)
Definition chroma4 (smp : sampler) (c : colorimetry) (l0 l1 : list Z) : reg :=
  let '(rg0, bg0) := unpack_ui8x3_i16x2_4x smp l0 in
  let '(rg1, bg1) := unpack_ui8x3_i16x2_4x smp l1 in
  fix_to_i32_4x (affine_transform_4x (sum_i16x2_neighborhood_2x rg0 rg1)
                                     (sum_i16x2_neighborhood_2x bg0 bg1) (uv_weights_4x c)) FIX18.

Definition lanes4 smp f g : list lane :=
  let p := gpx smp f in let q := gpx smp g in
  [(false, (p 0, p 1, q 0, q 1)); (true, (p 1, p 0, q 1, q 0));
   (false, (p 2, p 3, q 2, q 3)); (true, (p 3, p 2, q 3, q 2))].

Lemma lanes4_ok smp f g l : all_bytes f -> all_bytes g -> In l (lanes4 smp f g) -> lane_ok l.
Proof.
  intros Hf Hg Hl. cbn in Hl.
  decompose [or] Hl; subst; try contradiction; repeat split; apply gpx_ok; auto.
Qed.

Lemma sum4 smp (F G : rgb -> Z) f g :
  (forall p q, F (add_rgb p q) = F p + F q) -> (forall p q, G (add_rgb p q) = G p + G q) ->
  sum_i16x2_neighborhood_2x (b16 (pairs F G (rgb4 smp f))) (b16 (pairs F G (rgb4 smp g)))
  = b16 (pairs (fun l => F (lsum l)) (fun l => G (lsum l)) (lanes4 smp f g)).
Proof.
  intros HF HG. rewrite <- (sum_lanes F G) by auto. reflexivity.
Qed.

Lemma chroma4_lanes smp c f g : all_bytes f -> all_bytes g ->
  chroma4 smp c (loaded 16 f) (loaded 16 g) = b32 (map (chroma_raw c) (lanes4 smp f g)).
Proof.
  intros Hf Hg. unfold chroma4. rewrite !unpack4 by auto.
  rewrite !sum4 by auto using fst3_add, snd3_add, thd3_add.
  unfold affine_transform_4x, fix_to_i32_4x, uv_weights_4x.
  rewrite (set1_map 4 _ (lanes4 smp f g)) by reflexivity.
  change (set_epi32 [fw c 2; fw c 3; fw c 2; fw c 3]) with (b32 (map (cw0 c) (lanes4 smp f g))).
  change (set_epi32 [fw c 4; fw c 5; fw c 4; fw c 5]) with (b32 (map (cw1 c) (lanes4 smp f g))).
  rewrite chroma_affine, srai32_map. reflexivity.
Qed.

Lemma lane_vals smp c f g : all_bytes f -> all_bytes g ->
  map (fun l => pack32 (chroma_raw c l)) (lanes4 smp f g) = map (lane_val c) (lanes4 smp f g).
Proof.
  intros Hf Hg. apply map_ext_in. intros l Hl. apply chroma_lane. apply (lanes4_ok smp f g); auto.
Qed.

Definition fuv (smp : sampler) (c : colorimetry) (l0 l1 : list Z) : list Z :=
  pack_i32_4x (chroma4 smp c l0 l1).

Lemma fuv_sse2 smp c : fuv_ok 4 16 spec_arith smp (cs_of c) (fuv smp c).
Proof.
  intros f g Hf Hg. unfold fuv. rewrite chroma4_lanes by auto.
  unfold lanes4 at 1. cbv zeta. rewrite pack4.
  change (map (fun p => pack32 (chroma_raw c p)) _) with (map (fun l => pack32 (chroma_raw c l)) (lanes4 smp f g)).
  rewrite lane_vals by auto. unfold lanes4. cbv zeta. cbn [map].
  rewrite (lane_swap c true), (lane_swap c true _ (gpx smp f 3)). reflexivity.
Qed.

(** The shuffle of [rgb_to_i420_4x] puts Cb before Cr. *)
Definition uv_res (smp : sampler) (c : colorimetry) (l0 l1 : list Z) : list Z :=
  let shuff := shuffle_epi32 (chroma4 smp c l0 l1) (mm_shuffle 3 1 2 0) in
  let packed_to_32 := packs_epi32 shuff shuff in
  let packed_to_16 := packus_epi16 packed_to_32 packed_to_32 in
  firstn 4 packed_to_16.
Definition fu smp c l0 l1 := firstn 2 (uv_res smp c l0 l1).
Definition fv smp c l0 l1 := skipn 2 (uv_res smp c l0 l1).

Lemma uv_res_lanes smp c f g : all_bytes f -> all_bytes g ->
  uv_res smp c (loaded 16 f) (loaded 16 g)
  = [blue_diff (cs_of c) 4 (gsum smp f g 0); blue_diff (cs_of c) 4 (gsum smp f g 1);
     red_diff (cs_of c) 4 (gsum smp f g 0); red_diff (cs_of c) 4 (gsum smp f g 1)].
Proof.
  intros Hf Hg. unfold uv_res. rewrite chroma4_lanes by auto.
  pose proof (lane_vals smp c f g Hf Hg) as E.
  unfold lanes4 in *. cbv zeta in *. cbn [map] in E.
  injection E as E0 E1 E2 E3.
  match goal with |- context [shuffle_epi32 (b32 (map ?F [?a; ?b; ?c; ?d])) _] =>
    change (shuffle_epi32 (b32 (map F [a; b; c; d])) (mm_shuffle 3 1 2 0))
      with (b32 (map F [a; c; b; d])) end.
  rewrite pack_lanes. cbn [app map firstn]. rewrite E0, E1, E2, E3.
  rewrite (lane_swap c true), (lane_swap c true _ (gpx smp f 3)). reflexivity.
Qed.

Lemma fu_sse2 smp c : fu_ok 2 16 spec_arith smp (cs_of c) (fu smp c).
Proof. intros f g Hf Hg. unfold fu. rewrite uv_res_lanes by auto. reflexivity. Qed.
Lemma fv_sse2 smp c : fv_ok 2 16 spec_arith smp (cs_of c) (fv smp c).
Proof. intros f g Hf Hg. unfold fv. rewrite uv_res_lanes by auto. reflexivity. Qed.

(** ** The kernels *)
Definition over (smp : sampler) : Z := match smp with S_Bgr => 4 | _ => 0 end.

Lemma rgb_to_nv12_sse2_ok T smp c :
  v12_ok T 4 (over smp) spec_arith smp c (rgb_to_nv12_sse2 smp (sampler_depth smp) c).
Proof.
  assert (E : rgb_to_nv12_sse2 smp (sampler_depth smp) c = vk12 4 16 (sampler_depth smp) (fy smp c) (fuv smp c))
    by (destruct smp; reflexivity).
  rewrite E. apply (vk12_ok T 2); auto using fy_sse2, fuv_sse2; destruct smp; cbn; lia.
Qed.
Lemma rgb_to_i420_sse2_ok T smp c :
  v420_ok T 4 (over smp) spec_arith smp c (rgb_to_i420_sse2 smp (sampler_depth smp) c).
Proof.
  assert (E : rgb_to_i420_sse2 smp (sampler_depth smp) c = vk420 4 16 (sampler_depth smp) (fy smp c) (fu smp c) (fv smp c))
    by (destruct smp; reflexivity).
  rewrite E. apply (vk420_ok T 2); auto using fy_sse2, fu_sse2, fv_sse2; destruct smp; cbn; lia.
Qed.
Lemma rgb_to_i444_sse2_ok T smp c :
  v444_ok T 4 (over smp) spec_arith smp c (rgb_to_i444_sse2 smp (sampler_depth smp) c).
Proof.
  assert (E : rgb_to_i444_sse2 smp (sampler_depth smp) c = vk444 4 16 (sampler_depth smp) (fy smp c) (fu4 smp c) (fv4 smp c))
    by (destruct smp; reflexivity).
  rewrite E. apply (vk444_ok T 4); auto using fy_sse2, fu4_sse2, fv4_sse2; destruct smp; cbn; lia.
Qed.
