(** The RGB to YCbCr kernels of avx2.rs. *)
From Coq Require Import ZArith List Bool Lia ZifyBool ZifyNat.
Import ListNotations.
From Verif Require Import Base Exec Area Fmt Common Scalar Wrappers Simd Vector Avx2 Spec PixelFacts
  KernelBase ForwardProofs SimdFacts VecForward X86Forward.
Open Scope Z_scope.

Definition rgb8 (smp : sampler) (f : Z -> Z) : list rgb :=
  [gpx smp f 0; gpx smp f 1; gpx smp f 2; gpx smp f 3;
   gpx smp f 4; gpx smp f 5; gpx smp f 6; gpx smp f 7].

Lemma rgb8_ok smp f p : all_bytes f -> In p (rgb8 smp f) -> rgb_ok 255 p.
Proof. intros H Hp. cbn in Hp. decompose [or] Hp; subst; try apply gpx_ok; auto; contradiction. Qed.

Definition quads8 (f : Z -> Z) : list quad :=
  [(f 0, f 1, f 2, f 3); (f 4, f 5, f 6, f 7); (f 8, f 9, f 10, f 11); (f 12, f 13, f 14, f 15);
   (f 16, f 17, f 18, f 19); (f 20, f 21, f 22, f 23); (f 24, f 25, f 26, f 27); (f 28, f 29, f 30, f 31)].
Definition triples8 (f : Z -> Z) : list quad :=
  [(f 0, f 1, f 2, f 3); (f 3, f 4, f 5, f 6); (f 6, f 7, f 8, f 9); (f 9, f 10, f 11, f 28);
   (f 12, f 13, f 14, f 15); (f 15, f 16, f 17, f 18); (f 18, f 19, f 20, f 21); (f 21, f 22, f 23, f 28)].

Lemma unpack8 smp f : all_bytes f ->
  unpack_ui8x3_i16x2_8x smp (loaded 32 f)
  = (b16 (pairs fst3 snd3 (rgb8 smp f)), b16 (pairs thd3 snd3 (rgb8 smp f))).
Proof.
  intros H. unfold unpack_ui8x3_i16x2_8x. destruct smp.
  - change (loaded 32 f) with (quads (quads8 f)).
    cbv zeta. edestruct unpack_argb as [-> ->]; [repeat constructor; apply H|]. reflexivity.
  - change (loaded 32 f) with (quads (quads8 f)).
    cbv zeta. edestruct unpack_bgra as [-> ->]; [repeat constructor; apply H|]. reflexivity.
  - cbv zeta.
    match goal with |- context [slli_epi32 ?l 8] => replace l with (quads (triples8 f)) by reflexivity end.
    edestruct unpack_bgra as [-> ->]; [repeat constructor; apply H|]. reflexivity.
Qed.

Lemma pack8_split {A} (F : A -> Z) ps qs : length ps = 4%nat ->
  halves2 packus_epi16
    (halves2 packs_epi32 (b32 (map F (ps ++ qs))) (b32 (map F (ps ++ qs))))
    (halves2 packs_epi32 (b32 (map F (ps ++ qs))) (b32 (map F (ps ++ qs))))
  = map (fun p => pack32 (F p)) (((ps ++ ps) ++ (ps ++ ps)) ++ ((qs ++ qs) ++ (qs ++ qs))).
Proof.
  intros H. rewrite map_app, b32_app.
  assert (L : length (b32 (map F ps)) = 16%nat) by (rewrite b32_length, map_length, H; reflexivity).
  rewrite (halves2_app packs_epi32) by auto.
  rewrite (halves2_app packus_epi16)
    by (rewrite packs_map, b16_length, app_length, !map_length, H; reflexivity).
  rewrite !pack_lanes, !map_app. reflexivity.
Qed.

Lemma pack8 {A} (F : A -> Z) a b c d a' b' c' d' :
  pack_i32_8x (b32 (map F [a; b; c; d; a'; b'; c'; d']))
  = map (fun p => pack32 (F p)) [a; b; c; d; a'; b'; c'; d'].
Proof.
  unfold pack_i32_8x. cbv zeta.
  change [a; b; c; d; a'; b'; c'; d'] with ([a; b; c; d] ++ [a'; b'; c'; d']) at 1 2 3 4.
  rewrite (pack8_split F [a; b; c; d] [a'; b'; c'; d']) by reflexivity. reflexivity.
Qed.

(** Luma and full-resolution chroma of one row. *)
Definition row1 (smp : sampler) (weights : reg * reg * reg) (l : list Z) : list Z :=
  let '(rg, bg) := unpack_ui8x3_i16x2_8x smp l in
  pack_i32_8x (fix_to_i32_8x (affine_transform_8x rg bg weights) FIX16).

Lemma row1_lanes smp f a0 x0 y0 a1 x1 y1 k (V : rgb -> Z) :
  all_bytes f ->
  to_bytes 4 a0 = to_bytes 2 y0 ++ to_bytes 2 x0 -> to_bytes 4 a1 = to_bytes 2 y1 ++ to_bytes 2 x1 ->
  (forall p, rgb_ok 255 p ->
     pack32 (i32 (i16 (fst3 p) * i16 y0 + i16 (snd3 p) * i16 x0
               + (i16 (thd3 p) * i16 y1 + i16 (snd3 p) * i16 x1) + k) / 2 ^ FIX16) = V p) ->
  row1 smp (set1_epi32 8 a0, set1_epi32 8 a1, set1_epi32 8 k) (loaded 32 f)
  = map (fun j => V (gpx smp f j)) (zseq 0 8).
Proof.
  intros H H0 H1 HV. unfold row1. rewrite unpack8 by auto.
  unfold affine_transform_8x, fix_to_i32_8x.
  rewrite !(set1_map 8 _ (rgb8 smp f)) by reflexivity.
  rewrite (b32_pairs (fun _ => a0) (fun _ => x0) (fun _ => y0)) by auto.
  rewrite (b32_pairs (fun _ => a1) (fun _ => x1) (fun _ => y1)) by auto.
  rewrite affine_lanes, srai32_map. unfold rgb8. rewrite pack8.
  transitivity (map V (rgb8 smp f)); [|reflexivity].
  apply map_ext_in. intros p Hp. apply HV. apply (rgb8_ok smp f); auto.
Qed.

Definition fy (smp : sampler) (c : colorimetry) := row1 smp (y_weights_8x c).
Definition fu4 (smp : sampler) (c : colorimetry) := row1 smp (u_weights_8x c).
Definition fv4 (smp : sampler) (c : colorimetry) := row1 smp (v_weights_8x c).

Lemma fy_avx2 smp c : fy_ok 8 32 spec_arith smp (cs_of c) (fy smp c).
Proof.
  intros f H. eapply row1_lanes; auto; [apply fw0|apply fw1|].
  intros p Hp. rewrite fw6. apply luma_lane; auto.
Qed.
Lemma fu4_avx2 smp c : fu4_ok 8 32 spec_arith smp (cs_of c) (fu4 smp c).
Proof. intros f H. eapply row1_lanes; auto; [apply fw3|apply fw5|]. apply cb_lane. Qed.
Lemma fv4_avx2 smp c : fv4_ok 8 32 spec_arith smp (cs_of c) (fv4 smp c).
Proof. intros f H. eapply row1_lanes; auto; [apply fw2|apply fw4|]. apply cr_lane. Qed.

(** Chroma of two rows: the register before packing. *)
Definition chroma8 (smp : sampler) (c : colorimetry) (l0 l1 : list Z) : reg :=
  let '(rg0, bg0) := unpack_ui8x3_i16x2_8x smp l0 in
  let '(rg1, bg1) := unpack_ui8x3_i16x2_8x smp l1 in
  fix_to_i32_8x (affine_transform_8x (sum_i16x2_neighborhood_4x rg0 rg1)
                                     (sum_i16x2_neighborhood_4x bg0 bg1) (uv_weights_8x c)) FIX18.

Definition lanes8 smp f g : list lane :=
  let p := gpx smp f in let q := gpx smp g in
  [(false, (p 0, p 1, q 0, q 1)); (true, (p 1, p 0, q 1, q 0));
   (false, (p 2, p 3, q 2, q 3)); (true, (p 3, p 2, q 3, q 2));
   (false, (p 4, p 5, q 4, q 5)); (true, (p 5, p 4, q 5, q 4));
   (false, (p 6, p 7, q 6, q 7)); (true, (p 7, p 6, q 7, q 6))].

Lemma lanes8_ok smp f g l : all_bytes f -> all_bytes g -> In l (lanes8 smp f g) -> lane_ok l.
Proof.
  intros Hf Hg Hl. cbn in Hl.
  decompose [or] Hl; subst; try contradiction; repeat split; apply gpx_ok; auto.
Qed.

Lemma sum8 smp (F G : rgb -> Z) f g :
  (forall p q, F (add_rgb p q) = F p + F q) -> (forall p q, G (add_rgb p q) = G p + G q) ->
  sum_i16x2_neighborhood_4x (b16 (pairs F G (rgb8 smp f))) (b16 (pairs F G (rgb8 smp g)))
  = b16 (pairs (fun l => F (lsum l)) (fun l => G (lsum l)) (lanes8 smp f g)).
Proof.
  intros HF HG. rewrite <- (sum_lanes F G) by auto. reflexivity.
Qed.

Lemma chroma8_lanes smp c f g : all_bytes f -> all_bytes g ->
  chroma8 smp c (loaded 32 f) (loaded 32 g) = b32 (map (chroma_raw c) (lanes8 smp f g)).
Proof.
  intros Hf Hg. unfold chroma8. rewrite !unpack8 by auto.
  rewrite !sum8 by auto using fst3_add, snd3_add, thd3_add.
  unfold affine_transform_8x, fix_to_i32_8x, uv_weights_8x.
  rewrite (set1_map 8 _ (lanes8 smp f g)) by reflexivity.
  change (set_epi32 [fw c 2; fw c 3; fw c 2; fw c 3; fw c 2; fw c 3; fw c 2; fw c 3])
    with (b32 (map (cw0 c) (lanes8 smp f g))).
  change (set_epi32 [fw c 4; fw c 5; fw c 4; fw c 5; fw c 4; fw c 5; fw c 4; fw c 5])
    with (b32 (map (cw1 c) (lanes8 smp f g))).
  rewrite chroma_affine, srai32_map. reflexivity.
Qed.

Lemma lane_vals smp c f g : all_bytes f -> all_bytes g ->
  map (fun l => pack32 (chroma_raw c l)) (lanes8 smp f g) = map (lane_val c) (lanes8 smp f g).
Proof.
  intros Hf Hg. apply map_ext_in. intros l Hl. apply chroma_lane. apply (lanes8_ok smp f g); auto.
Qed.

Definition fuv (smp : sampler) (c : colorimetry) (l0 l1 : list Z) : list Z :=
  pack_i32_8x (chroma8 smp c l0 l1).

Lemma fuv_avx2 smp c : fuv_ok 8 32 spec_arith smp (cs_of c) (fuv smp c).
Proof.
  intros f g Hf Hg. unfold fuv. rewrite chroma8_lanes by auto.
  unfold lanes8 at 1. cbv zeta. rewrite pack8.
  change (map (fun p => pack32 (chroma_raw c p)) _) with (map (fun l => pack32 (chroma_raw c l)) (lanes8 smp f g)).
  rewrite lane_vals by auto. unfold lanes8. cbv zeta. cbn [map].
  rewrite (lane_swap c true _ (gpx smp f 1)), (lane_swap c true _ (gpx smp f 3)),
    (lane_swap c true _ (gpx smp f 5)), (lane_swap c true _ (gpx smp f 7)). reflexivity.
Qed.

(** The shuffle of [rgb_to_i420_8x] puts Cb before Cr. *)
Definition uv_res (smp : sampler) (c : colorimetry) (l0 l1 : list Z) : list Z :=
  let shuff := permutevar8x32 (chroma8 smp c l0 l1) (set_epi32 [7; 5; 3; 1; 6; 4; 2; 0]) in
  let packed_to_32 := halves2 packs_epi32 shuff shuff in
  let packed_to_16 := halves2 packus_epi16 packed_to_32 packed_to_32 in
  let permuted := permutevar8x32 packed_to_16 pack_lo_dword_2x128 in
  firstn 8 permuted.
Definition fu smp c l0 l1 := firstn 4 (uv_res smp c l0 l1).
Definition fv smp c l0 l1 := skipn 4 (uv_res smp c l0 l1).

Lemma uv_res_lanes smp c f g : all_bytes f -> all_bytes g ->
  uv_res smp c (loaded 32 f) (loaded 32 g)
  = [blue_diff (cs_of c) 4 (gsum smp f g 0); blue_diff (cs_of c) 4 (gsum smp f g 1);
     blue_diff (cs_of c) 4 (gsum smp f g 2); blue_diff (cs_of c) 4 (gsum smp f g 3);
     red_diff (cs_of c) 4 (gsum smp f g 0); red_diff (cs_of c) 4 (gsum smp f g 1);
     red_diff (cs_of c) 4 (gsum smp f g 2); red_diff (cs_of c) 4 (gsum smp f g 3)].
Proof.
  intros Hf Hg. unfold uv_res. rewrite chroma8_lanes by auto.
  pose proof (lane_vals smp c f g Hf Hg) as E.
  unfold lanes8 in *. cbv zeta in *. cbn [map] in E.
  injection E as E0 E1 E2 E3 E4 E5 E6 E7.
  match goal with |- context [permutevar8x32 (b32 (map ?F [?a; ?b; ?c; ?d; ?a'; ?b'; ?c'; ?d'])) ?i] =>
    change (permutevar8x32 (b32 (map F [a; b; c; d; a'; b'; c'; d'])) i)
      with (b32 (map F ([a; c; a'; c'] ++ [b; d; b'; d']))) end.
  rewrite pack8_split by reflexivity. cbn [app map].
  rewrite E0, E1, E2, E3, E4, E5, E6, E7.
  rewrite (lane_swap c true _ (gpx smp f 1)), (lane_swap c true _ (gpx smp f 3)),
    (lane_swap c true _ (gpx smp f 5)), (lane_swap c true _ (gpx smp f 7)). reflexivity.
Qed.

Lemma fu_avx2 smp c : fu_ok 4 32 spec_arith smp (cs_of c) (fu smp c).
Proof. intros f g Hf Hg. unfold fu. rewrite uv_res_lanes by auto. reflexivity. Qed.
Lemma fv_avx2 smp c : fv_ok 4 32 spec_arith smp (cs_of c) (fv smp c).
Proof. intros f g Hf Hg. unfold fv. rewrite uv_res_lanes by auto. reflexivity. Qed.

(** ** The kernels *)
Definition over (smp : sampler) : Z := match smp with S_Bgr => 8 | _ => 0 end.

Lemma rgb_to_nv12_avx2_ok T smp c :
  v12_ok T 8 (over smp) spec_arith smp c (rgb_to_nv12_avx2 smp (sampler_depth smp) c).
Proof.
  assert (E : rgb_to_nv12_avx2 smp (sampler_depth smp) c = vk12 8 32 (sampler_depth smp) (fy smp c) (fuv smp c))
    by (destruct smp; reflexivity).
  rewrite E. apply (vk12_ok T 4); auto using fy_avx2, fuv_avx2; destruct smp; cbn; lia.
Qed.
Lemma rgb_to_i420_avx2_ok T smp c :
  v420_ok T 8 (over smp) spec_arith smp c (rgb_to_i420_avx2 smp (sampler_depth smp) c).
Proof.
  assert (E : rgb_to_i420_avx2 smp (sampler_depth smp) c = vk420 8 32 (sampler_depth smp) (fy smp c) (fu smp c) (fv smp c))
    by (destruct smp; reflexivity).
  rewrite E. apply (vk420_ok T 4); auto using fy_avx2, fu_avx2, fv_avx2; destruct smp; cbn; lia.
Qed.
Lemma rgb_to_i444_avx2_ok T smp c :
  v444_ok T 8 (over smp) spec_arith smp c (rgb_to_i444_avx2 smp (sampler_depth smp) c).
Proof.
  assert (E : rgb_to_i444_avx2 smp (sampler_depth smp) c = vk444 8 32 (sampler_depth smp) (fy smp c) (fu4 smp c) (fv4 smp c))
    by (destruct smp; reflexivity).
  rewrite E. apply (vk444_ok T 8); auto using fy_avx2, fu4_avx2, fv4_avx2; destruct smp; cbn; lia.
Qed.
