(** Runs on buffers of the same sizes with other contents. *)
From Coq Require Import ZArith List Bool Lia ZifyBool ZifyNat.
Import ListNotations.
From Verif Require Import Base Fmt Common Scalar Wrappers Simd Vector CpuInfo Lib Sets Spec ApiSpec Api Exec PixelFacts KernelBase DataSpec EndianSpec Trace CourseSpec BigFacts CastFacts.
From Verif Require Sse2 Avx2 Neon.
Open Scope Z_scope.
Ltac Zify.zify_post_hook ::= Z.div_mod_to_equations.

(** ** Lengths of registers *)
Section Lengths.
Local Notation "x ~ y" := (length x = length y) (at level 70).
Lemma w16_length x : length (w16 x) = (length x / 2)%nat.
Proof.
  remember (length x) as n eqn:E. revert x E. induction n as [n IH] using lt_wf_ind. intros [|a [|b t]] E; subst n; try reflexivity.
  cbn [w16 length]. rewrite (IH (length t)) by (cbn; auto; lia).
  replace (S (S (length t))) with (length t + 1 * 2)%nat by lia. rewrite Nat.div_add by lia. lia.
Qed.
Lemma w32_length x : length (w32 x) = (length x / 4)%nat.
Proof.
  remember (length x) as n eqn:E. revert x E. induction n as [n IH] using lt_wf_ind. intros [|a [|b [|c [|d t]]]] E; subst n; try reflexivity.
  cbn [w32 length]. rewrite (IH (length t)) by (cbn; auto; lia).
  replace (S (S (S (S (length t))))) with (length t + 1 * 4)%nat by lia. rewrite Nat.div_add by lia. lia.
Qed.
Lemma pair_sums_length x : length (pair_sums x) = (length x / 2)%nat.
Proof.
  remember (length x) as n eqn:E. revert x E. induction n as [n IH] using lt_wf_ind. intros [|a [|b t]] E; subst n; try reflexivity.
  cbn [pair_sums length]. rewrite (IH (length t)) by (cbn; auto; lia).
  replace (S (S (length t))) with (length t + 1 * 2)%nat by lia. rewrite Nat.div_add by lia. lia.
Qed.
Lemma b16_length l : length (b16 l) = (2 * length l)%nat.
Proof. unfold b16. induction l as [|a l IH]; [reflexivity|]. cbn [flat_map]. rewrite app_length, IH. cbn [to_bytes length]. lia. Qed.
Lemma b32_length l : length (b32 l) = (4 * length l)%nat.
Proof. unfold b32. induction l as [|a l IH]; [reflexivity|]. cbn [flat_map]. rewrite app_length, IH. cbn [to_bytes length]. lia. Qed.
Lemma map2_length f x : forall y, length (map2 f x y) = Nat.min (length x) (length y).
Proof. induction x as [|a x IH]; intros [|b y]; cbn [map2 length]; auto. rewrite IH. lia. Qed.
Lemma flat_map_same {A} (f g : A -> list Z) l : (forall k, f k ~ g k) -> flat_map f l ~ flat_map g l.
Proof. intros H. induction l as [|a l IH]; [reflexivity|]. cbn [flat_map]. rewrite !app_length, IH, H. reflexivity. Qed.
Lemma el_elem n k x x' : x ~ x' -> elem n k x ~ elem n k x'.
Proof. intros H. unfold elem. rewrite !firstn_length, !skipn_length, H. reflexivity. Qed.
Lemma el_app (x x' y y' : list Z) : x ~ x' -> y ~ y' -> (x ++ y) ~ (x' ++ y').
Proof. intros H1 H2. rewrite !app_length, H1, H2. reflexivity. Qed.
Lemma el_cons a a' (x x' : list Z) : x ~ x' -> (a :: x) ~ (a' :: x').
Proof. intros H. cbn [length]. rewrite H. reflexivity. Qed.
Lemma el_firstn n (x x' : list Z) : x ~ x' -> firstn n x ~ firstn n x'.
Proof. intros H. rewrite !firstn_length, H. reflexivity. Qed.
Lemma el_skipn n (x x' : list Z) : x ~ x' -> skipn n x ~ skipn n x'.
Proof. intros H. rewrite !skipn_length, H. reflexivity. Qed.
Lemma el_map (f : Z -> Z) x x' : x ~ x' -> map f x ~ map f x'.
Proof. intros H. rewrite !map_length, H. reflexivity. Qed.
Lemma el_map2 f x x' y y' : x ~ x' -> y ~ y' -> map2 f x y ~ map2 f x' y'.
Proof. intros H1 H2. rewrite !map2_length, H1, H2. reflexivity. Qed.
Lemma el_w16 x x' : x ~ x' -> w16 x ~ w16 x'.
Proof. intros H. rewrite !w16_length, H. reflexivity. Qed.
Lemma el_w32 x x' : x ~ x' -> w32 x ~ w32 x'.
Proof. intros H. rewrite !w32_length, H. reflexivity. Qed.
Lemma el_b16 x x' : x ~ x' -> b16 x ~ b16 x'.
Proof. intros H. rewrite !b16_length, H. reflexivity. Qed.
Lemma el_b32 x x' : x ~ x' -> b32 x ~ b32 x'.
Proof. intros H. rewrite !b32_length, H. reflexivity. Qed.
Lemma el_pair_sums x x' : x ~ x' -> pair_sums x ~ pair_sums x'.
Proof. intros H. rewrite !pair_sums_length, H. reflexivity. Qed.
End Lengths.

(** Two registers made the same way are as long. *)
Ltac eqlen :=
  lazymatch goal with
  | |- length ?x = length ?x => reflexivity
  | H : length ?x = length ?y |- length ?x = length ?y => exact H
  | |- length (_ ++ _) = _ => apply el_app; eqlen
  | |- length (_ :: _) = length (_ :: _) => apply el_cons; eqlen
  | |- length (firstn _ _) = _ => apply el_firstn; eqlen
  | |- length (skipn _ _) = _ => apply el_skipn; eqlen
  | |- length (map2 _ _ _) = _ => apply el_map2; eqlen
  | |- length (w16 _) = _ => apply el_w16; eqlen
  | |- length (w32 _) = _ => apply el_w32; eqlen
  | |- length (b16 _) = _ => apply el_b16; eqlen
  | |- length (b32 _) = _ => apply el_b32; eqlen
  | |- length (pair_sums _) = _ => apply el_pair_sums; eqlen
  | |- length (elem _ _ _) = _ => apply el_elem; eqlen
  | |- length (flat_map _ ?l) = length (flat_map _ ?l) => apply flat_map_same; intros ?; eqlen
  | |- length (map _ ?l) = length (map _ ?l) => rewrite !map_length; reflexivity
  | |- length (map _ _) = _ => apply el_map; eqlen
  | |- length (if ?b then _ else _) = _ => destruct b; eqlen
  | |- length (match ?x with _ => _ end) = _ => let f := head x in unfold f; cbv beta iota zeta; eqlen
  | |- length ?x = length ?y => let f := head x in unfold f; cbv beta iota zeta; eqlen
  end.

Lemma el_slli_epi16 x x' n : length x = length x' -> length (slli_epi16 x n) = length (slli_epi16 x' n).
Proof. intros H. eqlen. Qed.
Lemma el_srli_epi16 x x' n : length x = length x' -> length (srli_epi16 x n) = length (srli_epi16 x' n).
Proof. intros H. eqlen. Qed.
Lemma el_srai_epi16 x x' n : length x = length x' -> length (srai_epi16 x n) = length (srai_epi16 x' n).
Proof. intros H. eqlen. Qed.
Lemma el_slli_epi32 x x' n : length x = length x' -> length (slli_epi32 x n) = length (slli_epi32 x' n).
Proof. intros H. eqlen. Qed.
Lemma el_srli_epi32 x x' n : length x = length x' -> length (srli_epi32 x n) = length (srli_epi32 x' n).
Proof. intros H. eqlen. Qed.
Lemma el_srai_epi32 x x' n : length x = length x' -> length (srai_epi32 x n) = length (srai_epi32 x' n).
Proof. intros H. eqlen. Qed.
Lemma el_slli_si128 x x' n : length x = length x' -> length (slli_si128 x n) = length (slli_si128 x' n).
Proof. intros H. eqlen. Qed.
Lemma el_srli_si128 x x' n : length x = length x' -> length (srli_si128 x n) = length (srli_si128 x' n).
Proof. intros H. eqlen. Qed.
Lemma el_shuffle_epi32 x x' n : length x = length x' -> length (shuffle_epi32 x n) = length (shuffle_epi32 x' n).
Proof. intros H. eqlen. Qed.
Lemma el_shufflelo_epi16 x x' n : length x = length x' -> length (shufflelo_epi16 x n) = length (shufflelo_epi16 x' n).
Proof. intros H. eqlen. Qed.
Lemma el_shufflehi_epi16 x x' n : length x = length x' -> length (shufflehi_epi16 x n) = length (shufflehi_epi16 x' n).
Proof. intros H. eqlen. Qed.
Lemma el_shuffle_epi8 x x' y y' : length x = length x' -> length y = length y' -> length (shuffle_epi8 x y) = length (shuffle_epi8 x' y').
Proof. intros H1 H2. unfold shuffle_epi8. rewrite !map_length. exact H2. Qed.
Lemma el_lo x x' : length x = length x' -> length (lo x) = length (lo x').
Proof. intros H. eqlen. Qed.
Lemma el_hi x x' : length x = length x' -> length (hi x) = length (hi x').
Proof. intros H. eqlen. Qed.
Lemma el_permutevar8x32 x x' n : length x = length x' -> length (permutevar8x32 x n) = length (permutevar8x32 x' n).
Proof. intros H. eqlen. Qed.
Lemma el_permute4x64 x x' n : length x = length x' -> length (permute4x64 x n) = length (permute4x64 x' n).
Proof. intros H. eqlen. Qed.
Lemma el_sse2_fix_to_i32_4x x x' n : length x = length x' -> length (Sse2.fix_to_i32_4x x n) = length (Sse2.fix_to_i32_4x x' n).
Proof. intros H. eqlen. Qed.
Lemma el_sse2_fix_to_i16_8x x x' n : length x = length x' -> length (Sse2.fix_to_i16_8x x n) = length (Sse2.fix_to_i16_8x x' n).
Proof. intros H. eqlen. Qed.
Lemma el_avx2_fix_to_i32_8x x x' n : length x = length x' -> length (Avx2.fix_to_i32_8x x n) = length (Avx2.fix_to_i32_8x x' n).
Proof. intros H. eqlen. Qed.
Lemma el_avx2_fix_to_i16_16x x x' n : length x = length x' -> length (Avx2.fix_to_i16_16x x n) = length (Avx2.fix_to_i16_16x x' n).
Proof. intros H. eqlen. Qed.
Lemma el_add_epi16 x x' y y' : length x = length x' -> length y = length y' -> length (add_epi16 x y) = length (add_epi16 x' y').
Proof. intros H1 H2. eqlen. Qed.
Lemma el_sub_epi16 x x' y y' : length x = length x' -> length y = length y' -> length (sub_epi16 x y) = length (sub_epi16 x' y').
Proof. intros H1 H2. eqlen. Qed.
Lemma el_add_epi32 x x' y y' : length x = length x' -> length y = length y' -> length (add_epi32 x y) = length (add_epi32 x' y').
Proof. intros H1 H2. eqlen. Qed.
Lemma el_mulhi_epu16 x x' y y' : length x = length x' -> length y = length y' -> length (mulhi_epu16 x y) = length (mulhi_epu16 x' y').
Proof. intros H1 H2. eqlen. Qed.
Lemma el_madd_epi16 x x' y y' : length x = length x' -> length y = length y' -> length (madd_epi16 x y) = length (madd_epi16 x' y').
Proof. intros H1 H2. eqlen. Qed.
Lemma el_or_si x x' y y' : length x = length x' -> length y = length y' -> length (or_si x y) = length (or_si x' y').
Proof. intros H1 H2. eqlen. Qed.
Lemma el_and_si x x' y y' : length x = length x' -> length y = length y' -> length (and_si x y) = length (and_si x' y').
Proof. intros H1 H2. eqlen. Qed.
Lemma el_andnot_si x x' y y' : length x = length x' -> length y = length y' -> length (andnot_si x y) = length (andnot_si x' y').
Proof. intros H1 H2. eqlen. Qed.
Lemma el_cmpeq_epi32 x x' y y' : length x = length x' -> length y = length y' -> length (cmpeq_epi32 x y) = length (cmpeq_epi32 x' y').
Proof. intros H1 H2. eqlen. Qed.
Lemma el_packs_epi32 x x' y y' : length x = length x' -> length y = length y' -> length (packs_epi32 x y) = length (packs_epi32 x' y').
Proof. intros H1 H2. eqlen. Qed.
Lemma el_packus_epi16 x x' y y' : length x = length x' -> length y = length y' -> length (packus_epi16 x y) = length (packus_epi16 x' y').
Proof. intros H1 H2. eqlen. Qed.
Lemma el_pack_lo_dqword x x' y y' : length x = length x' -> length y = length y' -> length (pack_lo_dqword x y) = length (pack_lo_dqword x' y').
Proof. intros H1 H2. eqlen. Qed.
Lemma el_pack_hi_dqword x x' y y' : length x = length x' -> length y = length y' -> length (pack_hi_dqword x y) = length (pack_hi_dqword x' y').
Proof. intros H1 H2. eqlen. Qed.
Lemma el_unpacklo n x x' y y' : length x = length x' -> length y = length y' -> length (unpacklo n x y) = length (unpacklo n x' y').
Proof. intros H1 H2. eqlen. Qed.
Lemma el_unpackhi n x x' y y' : length x = length x' -> length y = length y' -> length (unpackhi n x y) = length (unpackhi n x' y').
Proof. intros H1 H2. eqlen. Qed.
Lemma el_blend x x' y y' n : length x = length x' -> length y = length y' -> length (blend_epi32 x y n) = length (blend_epi32 x' y' n).
Proof. intros H1 H2. eqlen. Qed.
Lemma el_halves1 f g x x' : (forall a a', length a = length a' -> length (f a) = length (g a')) ->
  length x = length x' -> length (halves1 f x) = length (halves1 g x').
Proof. intros F H. unfold halves1. apply el_app; apply F; [apply el_lo|apply el_hi]; exact H. Qed.
Lemma el_halves2 f g x x' y y' : (forall a a' b b', length a = length a' -> length b = length b' -> length (f a b) = length (g a' b')) ->
  length x = length x' -> length y = length y' -> length (halves2 f x y) = length (halves2 g x' y').
Proof. intros F H1 H2. unfold halves2. apply el_app; apply F; apply el_lo || apply el_hi; assumption. Qed.
Ltac lens :=
  lazymatch goal with
  | |- length ?x = length ?x => reflexivity
  | H : length ?x = length ?y |- length ?x = length ?y => exact H
  | |- length (_ ++ _) = _ => apply el_app; lens
  | |- length (firstn _ _) = _ => apply el_firstn; lens
  | |- length (skipn _ _) = _ => apply el_skipn; lens
  | |- length (elem _ _ _) = _ => apply el_elem; lens
  | |- length (halves1 _ _) = _ => apply el_halves1; [intros; cbv beta|]; lens
  | |- length (halves2 _ _ _) = _ => apply el_halves2; [intros; cbv beta| |]; lens
  | |- length (blend_epi32 _ _ _) = _ => apply el_blend; lens
  | |- length (slli_epi16 _ _) = _ => apply el_slli_epi16; lens
  | |- length (srli_epi16 _ _) = _ => apply el_srli_epi16; lens
  | |- length (srai_epi16 _ _) = _ => apply el_srai_epi16; lens
  | |- length (slli_epi32 _ _) = _ => apply el_slli_epi32; lens
  | |- length (srli_epi32 _ _) = _ => apply el_srli_epi32; lens
  | |- length (srai_epi32 _ _) = _ => apply el_srai_epi32; lens
  | |- length (slli_si128 _ _) = _ => apply el_slli_si128; lens
  | |- length (srli_si128 _ _) = _ => apply el_srli_si128; lens
  | |- length (shuffle_epi32 _ _) = _ => apply el_shuffle_epi32; lens
  | |- length (shufflelo_epi16 _ _) = _ => apply el_shufflelo_epi16; lens
  | |- length (shufflehi_epi16 _ _) = _ => apply el_shufflehi_epi16; lens
  | |- length (shuffle_epi8 _ _) = _ => apply el_shuffle_epi8; lens
  | |- length (lo _) = _ => apply el_lo; lens
  | |- length (hi _) = _ => apply el_hi; lens
  | |- length (permutevar8x32 _ _) = _ => apply el_permutevar8x32; lens
  | |- length (permute4x64 _ _) = _ => apply el_permute4x64; lens
  | |- length (Sse2.fix_to_i32_4x _ _) = _ => apply el_sse2_fix_to_i32_4x; lens
  | |- length (Sse2.fix_to_i16_8x _ _) = _ => apply el_sse2_fix_to_i16_8x; lens
  | |- length (Avx2.fix_to_i32_8x _ _) = _ => apply el_avx2_fix_to_i32_8x; lens
  | |- length (Avx2.fix_to_i16_16x _ _) = _ => apply el_avx2_fix_to_i16_16x; lens
  | |- length (add_epi16 _ _) = _ => apply el_add_epi16; lens
  | |- length (sub_epi16 _ _) = _ => apply el_sub_epi16; lens
  | |- length (add_epi32 _ _) = _ => apply el_add_epi32; lens
  | |- length (mulhi_epu16 _ _) = _ => apply el_mulhi_epu16; lens
  | |- length (madd_epi16 _ _) = _ => apply el_madd_epi16; lens
  | |- length (or_si _ _) = _ => apply el_or_si; lens
  | |- length (and_si _ _) = _ => apply el_and_si; lens
  | |- length (andnot_si _ _) = _ => apply el_andnot_si; lens
  | |- length (cmpeq_epi32 _ _) = _ => apply el_cmpeq_epi32; lens
  | |- length (packs_epi32 _ _) = _ => apply el_packs_epi32; lens
  | |- length (packus_epi16 _ _) = _ => apply el_packus_epi16; lens
  | |- length (pack_lo_dqword _ _) = _ => apply el_pack_lo_dqword; lens
  | |- length (pack_hi_dqword _ _) = _ => apply el_pack_hi_dqword; lens
  | |- length (unpacklo _ _ _) = _ => apply el_unpacklo; lens
  | |- length (unpackhi _ _ _) = _ => apply el_unpackhi; lens
  end.

(** Functions of the vector files. *)
Notation same_len x y := (length x = length y) (only parsing).
Definition same_len2 (p q : reg * reg) : Prop := same_len (fst p) (fst q) /\ same_len (snd p) (snd q).
Definition same_len3 (p q : reg * reg * reg) : Prop := same_len2 (fst p) (fst q) /\ same_len (snd p) (snd q).
Lemma el_sse2_unpack3 smp l l' : same_len l l' -> same_len2 (Sse2.unpack_ui8x3_i16x2_4x smp l) (Sse2.unpack_ui8x3_i16x2_4x smp l').
Proof. intros H. destruct smp; split; cbn [fst snd Sse2.unpack_ui8x3_i16x2_4x]; lens. Qed.
Lemma el_avx2_unpack3 smp l l' : same_len l l' -> same_len2 (Avx2.unpack_ui8x3_i16x2_8x smp l) (Avx2.unpack_ui8x3_i16x2_8x smp l').
Proof. intros H. destruct smp; split; cbn [fst snd Avx2.unpack_ui8x3_i16x2_8x]; lens. Qed.
Lemma el_sse2_affine x x' y y' w : same_len x x' -> same_len y y' -> same_len (Sse2.affine_transform_4x x y w) (Sse2.affine_transform_4x x' y' w).
Proof. intros H1 H2. destruct w as [[w0 w1] w2]. unfold Sse2.affine_transform_4x. lens. Qed.
Lemma el_avx2_affine x x' y y' w : same_len x x' -> same_len y y' -> same_len (Avx2.affine_transform_8x x y w) (Avx2.affine_transform_8x x' y' w).
Proof. intros H1 H2. destruct w as [[w0 w1] w2]. unfold Avx2.affine_transform_8x. lens. Qed.
Lemma el_sse2_sum x x' y y' : same_len x x' -> same_len y y' -> same_len (Sse2.sum_i16x2_neighborhood_2x x y) (Sse2.sum_i16x2_neighborhood_2x x' y').
Proof. intros H1 H2. unfold Sse2.sum_i16x2_neighborhood_2x. lens. Qed.
Lemma el_avx2_sum x x' y y' : same_len x x' -> same_len y y' -> same_len (Avx2.sum_i16x2_neighborhood_4x x y) (Avx2.sum_i16x2_neighborhood_4x x' y').
Proof. intros H1 H2. unfold Avx2.sum_i16x2_neighborhood_4x. lens. Qed.
Lemma el_sse2_pack x x' : same_len x x' -> same_len (Sse2.pack_i32_4x x) (Sse2.pack_i32_4x x').
Proof. intros H. unfold Sse2.pack_i32_4x. lens. Qed.
Lemma el_avx2_pack x x' : same_len x x' -> same_len (Avx2.pack_i32_8x x) (Avx2.pack_i32_8x x').
Proof. intros H. unfold Avx2.pack_i32_8x. lens. Qed.
Lemma el_sse2_rgb_bgra x x' : same_len x x' -> same_len (Sse2.rgb_to_bgra_4x x) (Sse2.rgb_to_bgra_4x x').
Proof. intros H. unfold Sse2.rgb_to_bgra_4x. lens. Qed.
Lemma el_luma_lo x x' : same_len x x' -> same_len (Avx2.luma_lo x) (Avx2.luma_lo x').
Proof. intros H. unfold Avx2.luma_lo. lens. Qed.
Lemma el_luma_hi x x' : same_len x x' -> same_len (Avx2.luma_hi x) (Avx2.luma_hi x').
Proof. intros H. unfold Avx2.luma_hi. lens. Qed.
Lemma el_sse2_chroma c x x' y y' : same_len x x' -> same_len y y' -> same_len3 (Sse2.chroma_8x c x y) (Sse2.chroma_8x c x' y').
Proof. intros H1 H2. unfold Sse2.chroma_8x. repeat split; cbn [fst snd]; lens. Qed.
Lemma el_avx2_chroma c x x' y y' : same_len x x' -> same_len y y' -> same_len3 (Avx2.chroma_16x c x y) (Avx2.chroma_16x c x' y').
Proof. intros H1 H2. unfold Avx2.chroma_16x. repeat split; cbn [fst snd]; lens. Qed.
Lemma el_sse2_double x x' : same_len x x' -> same_len2 (Sse2.i16_to_i16x2_8x x) (Sse2.i16_to_i16x2_8x x').
Proof. intros H. unfold Sse2.i16_to_i16x2_8x. split; cbn [fst snd]; lens. Qed.
Lemma el_avx2_double x x' : same_len x x' -> same_len2 (Avx2.i16_to_i16x2_16x x) (Avx2.i16_to_i16x2_16x x').
Proof. intros H. unfold Avx2.i16_to_i16x2_16x. split; cbn [fst snd]; lens. Qed.
Lemma el_sse2_pack3 rev r r' g g' b b' : same_len r r' -> same_len g g' -> same_len b b' ->
  same_len2 (Sse2.pack_i16x3_8x rev r g b) (Sse2.pack_i16x3_8x rev r' g' b').
Proof. intros H1 H2 H3. unfold Sse2.pack_i16x3_8x. destruct rev; split; cbn [fst snd]; lens. Qed.
Lemma el_avx2_pack3 rev r r' g g' b b' : same_len r r' -> same_len g g' -> same_len b b' ->
  same_len2 (Avx2.pack_i16x3_16x rev r g b) (Avx2.pack_i16x3_16x rev r' g' b').
Proof. intros H1 H2 H3. unfold Avx2.pack_i16x3_16x. destruct rev; split; cbn [fst snd]; lens. Qed.
Lemma el_avx2_packrgb r r' g g' b b' : same_len r r' -> same_len g g' -> same_len b b' ->
  same_len2 (Avx2.pack_rgb_16x r g b) (Avx2.pack_rgb_16x r' g' b').
Proof. intros H1 H2 H3. unfold Avx2.pack_rgb_16x. split; cbn [fst snd]; cbv zeta; lens. Qed.
Ltac lens' :=
  repeat lazymatch goal with
  | |- length (Sse2.affine_transform_4x _ _ _) = _ => apply el_sse2_affine
  | |- length (Avx2.affine_transform_8x _ _ _) = _ => apply el_avx2_affine
  | |- length (Sse2.sum_i16x2_neighborhood_2x _ _) = _ => apply el_sse2_sum
  | |- length (Avx2.sum_i16x2_neighborhood_4x _ _) = _ => apply el_avx2_sum
  | |- length (Sse2.pack_i32_4x _) = _ => apply el_sse2_pack
  | |- length (Avx2.pack_i32_8x _) = _ => apply el_avx2_pack
  | |- length (Sse2.rgb_to_bgra_4x _) = _ => apply el_sse2_rgb_bgra
  | |- length (Avx2.luma_lo _) = _ => apply el_luma_lo
  | |- length (Avx2.luma_hi _) = _ => apply el_luma_hi
  | |- length (Sse2.fix_to_i32_4x _ _) = _ => apply el_sse2_fix_to_i32_4x
  | |- length (Avx2.fix_to_i32_8x _ _) = _ => apply el_avx2_fix_to_i32_8x
  | |- length (Sse2.fix_to_i16_8x _ _) = _ => apply el_sse2_fix_to_i16_8x
  | |- length (Avx2.fix_to_i16_16x _ _) = _ => apply el_avx2_fix_to_i16_16x
  | |- length (add_epi16 _ _) = _ => apply el_add_epi16
  | |- length (mulhi_epu16 _ _) = _ => apply el_mulhi_epu16
  | |- _ => lens
  end.

(** ** Memories of the same sizes *)
Definition sized (m1 m2 : mem) : Prop :=
  same_sizes (srcs m1) (srcs m2) /\ same_sizes (dsts m1) (dsts m2) /\ of_bytes (srcs m1) /\ of_bytes (srcs m2).

Lemma of_bytes_nth bufs n i : of_bytes bufs -> is_byte (nth i (nth n bufs []) 0).
Proof.
  intros H. assert (F : Forall is_byte (nth n bufs [])).
  { destruct (lt_dec n (length bufs)) as [L|L].
    - apply (proj1 (Forall_forall _ _) H), nth_In, L.
    - rewrite nth_overflow by lia. constructor. }
  destruct (lt_dec i (length (nth n bufs []))) as [L|L].
  - apply (proj1 (Forall_forall _ _) F), nth_In, L.
  - rewrite nth_overflow by lia. unfold is_byte. lia.
Qed.
Lemma same_sizes_nth b b' n : same_sizes b b' -> length (nth n b []) = length (nth n b' []).
Proof.
  unfold same_sizes. intros H. change 0%nat with (@length Z []).
  rewrite <- !(map_nth (@length Z)), H. reflexivity.
Qed.

Section Course.
Variable T : target.
Let HA : alike T T := conj eq_refl eq_refl.
Notation like R := (rel T T sized R).

Definition bytes2 (a b : Z) : Prop := is_byte a /\ is_byte b.
Definition within (lo hi : Z) (a b : Z) : Prop := lo <= a <= hi /\ lo <= b <= hi.

Lemma like_ld s i : like any (ld s i) (ld s i).
Proof.
  intros m1 m2 Hm. unfold ld. cbn [run traced]. unfold zlen. destruct (s_plane s) as [n|n]; cbn [plane_bytes].
  - rewrite (same_sizes_nth _ _ n (proj1 Hm)). destruct (_ && _ && _ && _); (split; [reflexivity|]); [split; [exact I|exact Hm]|reflexivity].
  - rewrite (same_sizes_nth _ _ n (proj1 (proj2 Hm))). destruct (_ && _ && _ && _); (split; [reflexivity|]); [split; [exact I|exact Hm]|reflexivity].
Qed.
Lemma like_ld_src s i : is_src s -> like bytes2 (ld s i) (ld s i).
Proof.
  intros [n E] m1 m2 Hm. unfold ld. cbn [run traced]. unfold zlen. rewrite E. cbn [plane_bytes].
  rewrite (same_sizes_nth _ _ n (proj1 Hm)). destruct (_ && _ && _ && _); (split; [reflexivity|]); [|reflexivity].
  split; [|exact Hm]. destruct Hm as (_ & _ & B1 & B2). split; apply of_bytes_nth; assumption.
Qed.
Lemma like_st s i v v' : like eq (st s i v) (st s i v').
Proof.
  intros m1 m2 Hm. unfold st. cbn [run traced]. unfold zlen. destruct (s_plane s) as [n|n]; [split; reflexivity|].
  rewrite (same_sizes_nth _ _ n (proj1 (proj2 Hm))). destruct (_ && _ && _ && _); (split; [reflexivity|]); [|reflexivity].
  split; [reflexivity|]. destruct Hm as (H1 & H2 & B1 & B2). split; [exact H1|]. split; [|split; assumption].
  unfold same_sizes in *. cbn [srcs dsts].
  assert (U : forall (l : list (list Z)) b, length b = length (nth n l []) -> map (@length Z) (upd l n b) = map (@length Z) l).
  { clear. induction n as [|n IH]; intros [|x l] b Hb; cbn in *; try reflexivity; f_equal; auto. }
  rewrite !U by apply upd_length. exact H2.
Qed.
Lemma like_ldn s n : forall i, like (fun a b => length a = length b) (ldn s i n) (ldn s i n).
Proof.
  induction n as [|n IH]; intros i; cbn [ldn].
  - apply rel_value. reflexivity.
  - eapply rel_bind; [apply like_ld|intros x y _]. eapply rel_bind; [apply IH|intros l l' E].
    apply rel_value. cbn in *. congruence.
Qed.
Lemma like_stn s l : forall l' i, length l = length l' -> like eq (stn s i l) (stn s i l').
Proof.
  induction l as [|b l IH]; intros [|b' l'] i E; try discriminate E; cbn [stn]; [apply rel_ret|].
  apply rel_bind_eq; [apply like_st|intros _]. apply IH. injection E; auto.
Qed.
Lemma like_in_order l l' : length l = length l' -> like (fun a b => length a = length b) (in_order l) (in_order l').
Proof. intros E m1 m2 Hm. unfold in_order. cbn [run traced]. split; [reflexivity|]. split; [|auto]. destruct (big T); rewrite ?rev_length; auto. Qed.
Lemma like_ld_word n s i : like any (ld_word n s i) (ld_word n s i).
Proof.
  unfold ld_word. eapply rel_bind; [apply like_ldn|intros l l' E]. eapply rel_bind; [apply like_in_order; exact E|].
  intros a b _. apply rel_value. exact I.
Qed.
Lemma like_st_word n s i v v' : like eq (st_word n s i v) (st_word n s i v').
Proof.
  unfold st_word. eapply rel_bind; [apply like_in_order|intros l l' E; apply like_stn; exact E].
  assert (L : forall n x, length (to_bytes n x) = n) by (clear; induction n; intros; cbn [to_bytes length]; auto).
  rewrite !L. reflexivity.
Qed.
Lemma like_ires lo hi r r' : - 2 ^ 31 <= lo -> hi < 2 ^ 31 -> within lo hi r r' -> like (within lo hi) (ires r) (ires r').
Proof.
  intros L H [H1 H2] m1 m2 Hm. unfold ires. cbn [run traced].
  replace ((- 2 ^ 31 <=? r) && (r <? 2 ^ 31)) with true by lia.
  replace ((- 2 ^ 31 <=? r') && (r' <? 2 ^ 31)) with true by lia. split; [reflexivity|]. split; [split; assumption|exact Hm].
Qed.
(** Computations that touch no memory. *)
Fixpoint silent {A} (c : M A) {struct c} : Prop :=
  match c with
  | Ret _ | Raise _ => True
  | Bind c k => silent c /\ forall b, silent (k b)
  | Ask k => forall T, silent (k T)
  | Usize _ k => forall v, silent (k v)
  | Int32 _ k => forall v, silent (k v)
  | Read _ _ _ | Write _ _ _ _ => False
  end.
Lemma silent_trace {A} (c : M A) : silent c -> forall m, fst (traced c T m) = [].
Proof.
  clear HA.
  induction c as [a|f|A B c IH k IHk|A k IH|A r k IH|A r k IH|A s i k IH|A s i v k IH]; intros H m; cbn [traced silent] in *; auto; try contradiction.
  - destruct H as [H1 H2]. rewrite (traced_pair T c m), (IH H1 m). destruct (c T m) as [b m'|f]; [|reflexivity].
    rewrite (traced_pair T (k b) m'), (IHk b (H2 b) m'). reflexivity.
  - destruct (_ && _); [auto|]. destruct (checked T); auto.
  - destruct (_ && _); [auto|]. destruct (checked T); auto.
Qed.
Lemma like_value {A} (R : A -> A -> Prop) (c1 c2 : M A) v1 v2 : silent c1 -> silent c2 ->
  (forall ms dl, exec T ms dl c1 [] v1) -> (forall ms dl, exec T ms dl c2 [] v2) -> R v1 v2 -> like R c1 c2.
Proof.
  intros S1 S2 H1 H2 HR m1 m2 Hm. rewrite (silent_trace c1 S1 m1), (silent_trace c2 S2 m2). split; [reflexivity|].
  rewrite (H1 (srcs m1) (map (@length Z) (dsts m1)) m1 (conj eq_refl eq_refl)).
  rewrite (H2 (srcs m2) (map (@length Z) (dsts m2)) m2 (conj eq_refl eq_refl)).
  split; [exact HR|exact Hm].
Qed.
Lemma like_assoc {A B C} (R : C -> C -> Prop) (a : M A) (b : A -> M B) (k : B -> M C) (a' : M A) (b' : A -> M B) (k' : B -> M C) :
  like R (bind a (fun x => bind (b x) k)) (bind a' (fun x => bind (b' x) k')) -> like R (bind (bind a b) k) (bind (bind a' b') k').
Proof.
  intros H m1 m2 Hm. specialize (H m1 m2 Hm).
  assert (E : forall (a : M A) (b : A -> M B) (k : B -> M C) m, traced (bind (bind a b) k) T m = traced (bind a (fun x => bind (b x) k)) T m).
  { clear. intros a b k m. unfold bind. cbn [traced]. destruct (traced a T m) as [l [x m'|f]]; [|reflexivity].
    destruct (traced (b x) T m') as [l' [y m2|f]]; [|reflexivity]. destruct (traced (k y) T m2) as [l2 r].
    rewrite app_assoc. reflexivity. }
  rewrite !E. unfold bind in *. cbn [run] in *. destruct (a T m1), (a' T m2); exact H.
Qed.
Lemma like_weaken {A} (R Q : A -> A -> Prop) (c1 c2 : M A) : (forall a b, R a b -> Q a b) -> like R c1 c2 -> like Q c1 c2.
Proof.
  intros H H1 m1 m2 Hm. specialize (H1 m1 m2 Hm). destruct (c1 T m1), (c2 T m2); try exact H1. destruct H1 as (? & ? & ?); auto.
Qed.

Ltac quiet :=
  repeat lazymatch goal with
  | |- silent (bind _ _) => split; [|intros ?]
  | |- silent (ret _) => exact I
  | |- silent (ires _) => exact (fun _ => I)
  | |- silent (match ?x with _ => _ end) => destruct x
  | |- silent ?c => let f := head c in unfold f; cbv beta zeta
  end.

(** ** Scalar arithmetic *)
Lemma like_affine x y z x' y' z' ax ay az bw :
  within 0 1020 x x' -> within 0 1020 y y' -> within 0 1020 z z' ->
  -65536 <= ax <= 65536 -> -65536 <= ay <= 65536 -> -65536 <= az <= 65536 -> 0 <= bw <= 134217728 ->
  like any (affine_transform x y z ax ay az bw) (affine_transform x' y' z' ax ay az bw).
Proof.
  intros [] [] [] ? ? ? ?. eapply like_value; [quiet|quiet|intros; apply exec_affine; assumption|intros; apply exec_affine; assumption|exact I].
Qed.
Lemma like_fwd_yb c : like (fun a b => a = b /\ a = YB c) (fwd_yb c) (fwd_yb c).
Proof. eapply like_value; try (intros; apply exec_fwd_yb); [quiet|quiet|auto]. Qed.
Lemma like_fwd_zb c : like (fun a b => a = b /\ a = ZB c) (fwd_zb c (YB c)) (fwd_zb c (YB c)).
Proof. eapply like_value; try (intros; apply exec_fwd_zb); [quiet|quiet|auto]. Qed.
Lemma like_mulhi a a' k : bytes2 a a' -> 0 <= k <= 65535 -> like (within 0 65279) (mulhi_i32 a k) (mulhi_i32 a' k).
Proof.
  intros [H H'] K. eapply like_value; [quiet|quiet|intros; apply exec_mulhi; auto|intros; apply exec_mulhi; auto|].
  split; apply mulhi_range; assumption.
Qed.
Definition within3 (p q : Z * Z * Z) : Prop :=
  let '(a, b, c) := p in let '(a', b', c') := q in
  within (-200000) 200000 a a' /\ within (-200000) 200000 b b' /\ within (-200000) 200000 c c'.
Lemma like_chroma c cb cr cb' cr' : bytes2 cb cb' -> bytes2 cr cr' -> like within3 (bwd_chroma c cb cr) (bwd_chroma c cb' cr').
Proof.
  intros [B B'] [C C']. eapply like_value; try (intros; apply exec_bwd_chroma; assumption); [quiet|quiet|].
  unfold chroma_terms, within3, within.
  destruct (bwd_coef_range c) as (_ & H1 & H2 & H3 & H4 & H5 & H6 & H7).
  pose proof (mulhi_range cr (RCRM c) C H1). pose proof (mulhi_range cb (GCBM c) B H3).
  pose proof (mulhi_range cr (GCRM c) C H2). pose proof (mulhi_range cb (BCBM c) B H4).
  pose proof (mulhi_range cr' (RCRM c) C' H1). pose proof (mulhi_range cb' (GCBM c) B' H3).
  pose proof (mulhi_range cr' (GCRM c) C' H2). pose proof (mulhi_range cb' (BCBM c) B' H4).
  lia.
Qed.
Lemma like_iadd lo hi a b a' b' : - 2 ^ 31 <= lo -> hi < 2 ^ 31 -> within lo hi (a + b) (a' + b') ->
  like (within lo hi) (iadd a b) (iadd a' b').
Proof. apply like_ires. Qed.
Lemma like_unpack2 s o : is_src s -> like (fun p q => bytes2 (fst p) (fst q) /\ bytes2 (snd p) (snd q)) (unpack_ui8x2_i32 s o) (unpack_ui8x2_i32 s o).
Proof.
  intros H. unfold unpack_ui8x2_i32. eapply rel_bind; [apply like_ld_src; exact H|intros a a' Ha].
  eapply rel_bind; [apply like_ld_src; exact H|intros b b' Hb]. apply rel_value. split; assumption.
Qed.
Definition bytes3 (p q : Z * Z * Z) : Prop :=
  let '(a, b, c) := p in let '(a', b', c') := q in bytes2 a a' /\ bytes2 b b' /\ bytes2 c c'.
Lemma like_unpack3 smp s o : is_src s -> like bytes3 (unpack_ui8x3_i32 smp s o) (unpack_ui8x3_i32 smp s o).
Proof.
  intros H. unfold unpack_ui8x3_i32. destruct (sampler_offsets smp) as [[o0 o1] o2].
  eapply rel_bind; [apply like_ld_src; exact H|intros a a' Ha].
  eapply rel_bind; [apply like_ld_src; exact H|intros b b' Hb].
  eapply rel_bind; [apply like_ld_src; exact H|intros c c' Hc].
  apply rel_value. repeat split; (apply Ha || apply Hb || apply Hc).
Qed.
Lemma like_wg x y w h : like eq (wg_index x y w h) (wg_index x y w h).
Proof. unfold wg_index. repeat rel_step HA. Qed.
Lemma like_pixel4 rev d o sy sr sg sb sy' sr' sg' sb' : within 0 65279 sy sy' -> within3 (sr, sg, sb) (sr', sg', sb') ->
  like eq (bwd_pixel4 rev d o sy sr sg sb) (bwd_pixel4 rev d o sy' sr' sg' sb').
Proof.
  intros Hy (Hr & Hg & Hb). unfold bwd_pixel4, within in *.
  do 3 (eapply rel_bind; [apply (like_iadd (-300000) 300000); unfold within; lia|intros ? ? _]).
  unfold pack_ui8x3. destruct rev; repeat (apply rel_bind_eq; [|intros ?] || apply like_st).
Qed.
Lemma like_pixel3 d o sy sr sg sb sy' sr' sg' sb' : within 0 65279 sy sy' -> within3 (sr, sg, sb) (sr', sg', sb') ->
  like eq (bwd_pixel3 d o sy sr sg sb) (bwd_pixel3 d o sy' sr' sg' sb').
Proof.
  intros Hy (Hr & Hg & Hb). unfold bwd_pixel3, within in *.
  do 3 (eapply rel_bind; [apply (like_iadd (-300000) 300000); unfold within; lia|intros ? ? _]).
  unfold pack_rgb. repeat (apply rel_bind_eq; [|intros ?] || apply like_st).
Qed.

(** ** The portable kernels *)
Definition src2 (s : slice * slice) : Prop := is_src (fst s) /\ is_src (snd s).
Definition src3 (s : slice * slice * slice) : Prop := is_src (fst (fst s)) /\ is_src (snd (fst s)) /\ is_src (snd s).
Definition like_1_2 (k : kernel_1_2) := forall w h ss s ds d, is_src s -> like eq (k w h ss s ds d) (k w h ss s ds d).
Definition like_1_3 (k : kernel_1_3) := forall w h ss s ds d, is_src s -> like eq (k w h ss s ds d) (k w h ss s ds d).
Definition like_2_1 (k : kernel_2_1) := forall w h ss s ds d, src2 s -> like eq (k w h ss s ds d) (k w h ss s ds d).
Definition like_3_1 (k : kernel_3_1) := forall w h ss s ds d, src3 s -> like eq (k w h ss s ds d) (k w h ss s ds d).
Definition like_1_1 (k : kernel_1_1) := forall w h ss s ds d, is_src s -> like eq (k w h ss s ds d) (k w h ss s ds d).

Lemma luma_coef c : (-65536 <= XR c <= 65536) /\ (-65536 <= XG c <= 65536) /\ (-65536 <= XB c <= 65536) /\ 0 <= YO c <= 134217728.
Proof. destruct c; cbv; intuition congruence. Qed.
Lemma chroma_coef c : (-65536 <= YR c <= 65536) /\ (-65536 <= YG c <= 65536) /\ (-65536 <= YB c <= 65536) /\
  (-65536 <= ZG c <= 65536) /\ (-65536 <= ZB c <= 65536).
Proof. destruct c; cbv; intuition congruence. Qed.
Lemma byte_within a b : bytes2 a b -> within 0 1020 a b.
Proof. unfold bytes2, within, is_byte. lia. Qed.
Lemma like_luma c r g b r' g' b' : bytes3 (r, g, b) (r', g', b') ->
  like any (affine_transform r g b (XR c) (XG c) (XB c) (YO c)) (affine_transform r' g' b' (XR c) (XG c) (XB c) (YO c)).
Proof.
  intros (Hr & Hg & Hb). destruct (luma_coef c) as (? & ? & ? & ?).
  apply like_affine; auto using byte_within.
Qed.

Ltac uses_eq := apply rel_bind_eq; [first [apply like_wg|apply like_st|apply like_stn; eqlen]|intros ?].

Lemma like_luma2 smp dp c s ss d ds x y : is_src s ->
  like (fun p q => let '(a, b, c) := p in let '(a', b', c') := q in within 0 1020 a a' /\ within 0 1020 b b' /\ within 0 1020 c c')
    (fwd_luma_2x2 smp dp c s ss d ds x y) (fwd_luma_2x2 smp dp c s ss d ds x y).
Proof.
  intros H. unfold fwd_luma_2x2, pack_i32x2. cbv zeta.
  apply rel_bind_eq; [apply like_wg|intros ?]. eapply rel_bind; [apply like_unpack3; exact H|intros [[? ?] ?] [[? ?] ?] P00].
  apply rel_bind_eq; [apply like_wg|intros ?]. eapply rel_bind; [apply like_unpack3; exact H|intros [[? ?] ?] [[? ?] ?] P10].
  apply rel_bind_eq; [apply like_wg|intros ?].
  eapply rel_bind; [apply like_luma; exact P00|intros ? ? _]. eapply rel_bind; [apply like_luma; exact P10|intros ? ? _].
  apply rel_bind_eq; [apply rel_bind_eq; [apply like_st|intros ?; apply like_st]|intros ?].
  apply rel_bind_eq; [apply like_wg|intros ?]. eapply rel_bind; [apply like_unpack3; exact H|intros [[? ?] ?] [[? ?] ?] P01].
  apply rel_bind_eq; [apply like_wg|intros ?]. eapply rel_bind; [apply like_unpack3; exact H|intros [[? ?] ?] [[? ?] ?] P11].
  apply rel_bind_eq; [apply like_wg|intros ?].
  eapply rel_bind; [apply like_luma; exact P01|intros ? ? _]. eapply rel_bind; [apply like_luma; exact P11|intros ? ? _].
  apply rel_bind_eq; [apply rel_bind_eq; [apply like_st|intros ?; apply like_st]|intros ?].
  unfold bytes3, bytes2, is_byte in *.
  do 3 (eapply rel_bind; [apply (like_iadd 0 510); unfold within; lia|intros ? ? ?];
        eapply rel_bind; [apply (like_iadd 0 510); unfold within; lia|intros ? ? ?];
        eapply rel_bind; [apply (like_iadd 0 1020); unfold within in *; lia|intros ? ? ?]).
  apply rel_value. auto.
Qed.

Lemma co18 : 0 <= FIX18_C_HALF + (FIX18_HALF - 1) <= 134217728.
Proof. cbv. intuition congruence. Qed.
Lemma co16 : 0 <= FIX16_C_HALF + (FIX16_HALF - 1) <= 134217728.
Proof. cbv. intuition congruence. Qed.

Ltac heads := eapply rel_bind; [apply like_fwd_yb|intros ? ? [<- ->]]; eapply rel_bind; [apply like_fwd_zb|intros ? ? [<- ->]].

Lemma like_rgb_nv12 smp dp c : like_1_2 (rgb_to_nv12 smp dp c).
Proof.
  intros w h ss s [ys us] [yb ub] H. unfold rgb_to_nv12. heads. cbv zeta.
  destruct (chroma_coef c) as (? & ? & ? & ? & ?). pose proof co18.
  apply rel_for; intros y. apply rel_for; intros x.
  eapply rel_bind; [apply like_luma2; exact H|intros [[? ?] ?] [[? ?] ?] (? & ? & ?)].
  apply rel_bind_eq; [apply like_wg|intros ?].
  eapply rel_bind; [apply like_affine; auto|intros ? ? _]. eapply rel_bind; [apply like_affine; auto|intros ? ? _].
  unfold pack_i32x2. apply rel_bind_eq; [apply like_st|intros ?; apply like_st].
Qed.
Lemma like_rgb_i420 smp dp c : like_1_3 (rgb_to_i420 smp dp c).
Proof.
  intros w h ss s [[ys us] vs] [[yb ub] vb] H. unfold rgb_to_i420. heads. cbv zeta.
  destruct (chroma_coef c) as (? & ? & ? & ? & ?). pose proof co18.
  apply rel_for; intros y. apply rel_for; intros x.
  eapply rel_bind; [apply like_luma2; exact H|intros [[? ?] ?] [[? ?] ?] (? & ? & ?)].
  do 2 (apply rel_bind_eq; [apply like_wg|intros ?]).
  eapply rel_bind; [apply like_affine; auto|intros ? ? _]. apply rel_bind_eq; [apply like_st|intros ?].
  eapply rel_bind; [apply like_affine; auto|intros ? ? _]. apply like_st.
Qed.
Lemma like_rgb_i444 smp dp c : like_1_3 (rgb_to_i444 smp dp c).
Proof.
  intros w h ss s [[ys us] vs] [[yb ub] vb] H. unfold rgb_to_i444. heads. cbv zeta.
  destruct (chroma_coef c) as (? & ? & ? & ? & ?). pose proof co16.
  apply rel_for; intros y. apply rel_for; intros x.
  apply rel_bind_eq; [apply like_wg|intros ?].
  eapply rel_bind; [apply like_unpack3; exact H|intros [[? ?] ?] [[? ?] ?] (? & ? & ?)].
  do 3 (apply rel_bind_eq; [apply like_wg|intros ?]).
  eapply rel_bind; [apply like_luma; split; [|split]; assumption|intros ? ? _]. apply rel_bind_eq; [apply like_st|intros ?].
  eapply rel_bind; [apply like_affine; auto using byte_within|intros ? ? _]. apply rel_bind_eq; [apply like_st|intros ?].
  eapply rel_bind; [apply like_affine; auto using byte_within|intros ? ? _]. apply like_st.
Qed.

Definition like_px (px : slice -> Z -> Z -> Z -> Z -> Z -> M unit) := forall d o sy sr sg sb sy' sr' sg' sb',
  within 0 65279 sy sy' -> within3 (sr, sg, sb) (sr', sg', sb') -> like eq (px d o sy sr sg sb) (px d o sy' sr' sg' sb').
Lemma xxym_range c : 0 <= XXYM c <= 65535.
Proof. apply (bwd_coef_range c). Qed.
Lemma like_bwd2 px dp c yb ys d ds x y sr sg sb sr' sg' sb' : like_px px -> is_src yb -> within3 (sr, sg, sb) (sr', sg', sb') ->
  like eq (bwd_luma_2x2 px dp c yb ys d ds x y sr sg sb) (bwd_luma_2x2 px dp c yb ys d ds x y sr' sg' sb').
Proof.
  intros Hp Hy Hc. unfold bwd_luma_2x2. pose proof (xxym_range c).
  apply rel_bind_eq; [apply like_wg|intros ?]. eapply rel_bind; [apply like_unpack2; exact Hy|intros [? ?] [? ?] [P Q]].
  eapply rel_bind; [apply like_mulhi; auto|intros ? ? ?]. apply rel_bind_eq; [apply like_wg|intros ?].
  apply rel_bind_eq; [apply Hp; auto|intros _].
  eapply rel_bind; [apply like_mulhi; auto|intros ? ? ?]. apply rel_bind_eq; [apply like_wg|intros ?].
  apply rel_bind_eq; [apply Hp; auto|intros _].
  apply rel_bind_eq; [apply like_wg|intros ?]. eapply rel_bind; [apply like_unpack2; exact Hy|intros [? ?] [? ?] [P' Q']].
  eapply rel_bind; [apply like_mulhi; auto|intros ? ? ?]. apply rel_bind_eq; [apply like_wg|intros ?].
  apply rel_bind_eq; [apply Hp; auto|intros _].
  eapply rel_bind; [apply like_mulhi; auto|intros ? ? ?]. apply rel_bind_eq; [apply like_wg|intros ?].
  apply Hp; auto.
Qed.
Lemma like_nv12_bgra c r : like_2_1 (nv12_to_bgra c r).
Proof.
  intros w h [ys us] [yb ub] ds d [Hy Hu]. unfold nv12_to_bgra. apply rel_for; intros y. apply rel_for; intros x.
  apply rel_bind_eq; [apply like_wg|intros ?]. eapply rel_bind; [apply like_unpack2; exact Hu|intros [? ?] [? ?] [P Q]].
  eapply rel_bind; [apply like_chroma; assumption|intros [[? ?] ?] [[? ?] ?] C].
  apply like_bwd2; auto. intros ? ? ? ? ? ? ? ? ? ?. apply like_pixel4.
Qed.
Lemma like_nv12_rgb c : like_2_1 (nv12_to_rgb c).
Proof.
  intros w h [ys us] [yb ub] ds d [Hy Hu]. unfold nv12_to_rgb. apply rel_for; intros y. apply rel_for; intros x.
  apply rel_bind_eq; [apply like_wg|intros ?]. eapply rel_bind; [apply like_unpack2; exact Hu|intros [? ?] [? ?] [P Q]].
  eapply rel_bind; [apply like_chroma; assumption|intros [[? ?] ?] [[? ?] ?] C].
  apply like_bwd2; auto. intros ? ? ? ? ? ? ? ? ? ?. apply like_pixel3.
Qed.
Lemma like_i420_bgra c r : like_3_1 (i420_to_bgra c r).
Proof.
  intros w h [[ys us] vs] [[yb ub] vb] ds d (Hy & Hu & Hv). unfold i420_to_bgra. apply rel_for; intros y. apply rel_for; intros x.
  apply rel_bind_eq; [apply like_wg|intros ?]. eapply rel_bind; [apply like_ld_src; exact Hu|intros ? ? ?].
  apply rel_bind_eq; [apply like_wg|intros ?]. eapply rel_bind; [apply like_ld_src; exact Hv|intros ? ? ?].
  eapply rel_bind; [apply like_chroma; assumption|intros [[? ?] ?] [[? ?] ?] C].
  apply like_bwd2; auto. intros ? ? ? ? ? ? ? ? ? ?. apply like_pixel4.
Qed.
Lemma like_i444_bgra c r : like_3_1 (i444_to_bgra c r).
Proof.
  intros w h [[ys us] vs] [[yb ub] vb] ds d (Hy & Hu & Hv). unfold i444_to_bgra. apply rel_for; intros y. apply rel_for; intros x.
  apply rel_bind_eq; [apply like_wg|intros ?]. eapply rel_bind; [apply like_ld_src; exact Hy|intros ? ? ?].
  apply rel_bind_eq; [apply like_wg|intros ?]. eapply rel_bind; [apply like_ld_src; exact Hu|intros ? ? ?].
  apply rel_bind_eq; [apply like_wg|intros ?]. eapply rel_bind; [apply like_ld_src; exact Hv|intros ? ? ?].
  eapply rel_bind; [apply like_chroma; assumption|intros [[? ?] ?] [[? ?] ?] C].
  eapply rel_bind; [apply like_mulhi; auto using xxym_range|intros ? ? ?]. apply rel_bind_eq; [apply like_wg|intros ?].
  apply like_pixel4; assumption.
Qed.

(** ** Code that only moves bytes and vectors *)
Lemma like_load {B} (Q : B -> B -> Prop) (c : M Z) k1 k2 : like any c c ->
  (forall a b, like Q (k1 a) (k2 b)) -> like Q (bind c k1) (bind c k2).
Proof. intros H1 H2. eapply rel_bind; [exact H1|intros a b _; apply H2]. Qed.
Lemma like_ret_bind {A B} (Q : B -> B -> Prop) (a a' : A) (k k' : A -> M B) : like Q (k a) (k' a') -> like Q (bind (ret a) k) (bind (ret a') k').
Proof.
  intros H. apply (rel_bind T T sized (fun x y => x = a /\ y = a')); [apply rel_value; auto|intros x y [-> ->]; exact H].
Qed.

Ltac two L :=
  let H := fresh in pose proof L as H;
  match goal with |- rel _ _ _ _ (match ?f with _ => _ end) (match ?g with _ => _ end) => destruct f as [? ?], g as [? ?] end;
  destruct H; cbn [fst snd] in *.
Ltac three L :=
  let H := fresh in pose proof L as H;
  match goal with |- rel _ _ _ _ (match ?f with _ => _ end) (match ?g with _ => _ end) => destruct f as [[? ?] ?], g as [[? ?] ?] end;
  destruct H as [[? ?] ?]; cbn [fst snd] in *.
Ltac moves :=
  repeat (cbv beta zeta iota; lazymatch goal with
  | |- rel _ _ _ _ (bind (ld _ _) _) _ => apply like_load; [apply like_ld|intros ? ?]
  | |- rel _ _ _ _ (bind (ld_u64 _ _) _) _ => apply like_load; [apply like_ld_word|intros ? ?]
  | |- rel _ _ _ _ (bind (ld_u32 _ _) _) _ => apply like_load; [apply like_ld_word|intros ? ?]
  | |- rel _ _ _ _ (bind (ldn _ _ _) _) _ => eapply rel_bind; [apply like_ldn|let L := fresh in intros ? ? L; cbv beta in L]
  | |- rel _ _ _ _ (bind (bind _ _) _) _ => apply like_assoc
  | |- rel _ _ _ _ (bind (ret _) _) _ => apply like_ret_bind
  | |- rel _ _ _ _ (bind (Sse2.unpack_ui8_i16be_8x _ _) _) _ => unfold Sse2.unpack_ui8_i16be_8x
  | |- rel _ _ _ _ (bind (Sse2.unpack_ui8x2_i16be_8x _ _) _) _ => unfold Sse2.unpack_ui8x2_i16be_8x
  | |- rel _ _ _ _ (bind (Sse2.load_lo_8x _ _) _) _ => unfold Sse2.load_lo_8x
  | |- rel _ _ _ _ (bind (Avx2.unpack_ui8_i16be_16x _ _) _) _ => unfold Avx2.unpack_ui8_i16be_16x
  | |- rel _ _ _ _ (bind (Avx2.unpack_ui8x2_i16be_16x _ _) _) _ => unfold Avx2.unpack_ui8x2_i16be_16x
  | |- rel _ _ _ _ (bind (Avx2.load_lo_16x _ _) _) _ => unfold Avx2.load_lo_16x
  | |- rel _ _ _ _ (bind (Neon.rgb_to_y_and_avg_uv_8x _ _ _ _ _ _ _ _) _) _ => unfold Neon.rgb_to_y_and_avg_uv_8x
  | |- rel _ _ _ _ (match Neon.rgb_to_uv_8x _ _ _ _ with _ => _ end) _ => unfold Neon.rgb_to_uv_8x, Neon.uv_weights
  | |- rel _ _ _ _ (bind (match Neon.load_rgb_8x _ _ with _ => _ end) _) _ => unfold Neon.load_rgb_8x
  | |- rel _ _ _ _ (st _ _ _) _ => apply like_st
  | |- rel _ _ _ _ (st_u64 _ _ _) _ => apply like_st_word
  | |- rel _ _ _ _ (st_u32 _ _ _) _ => apply like_st_word
  | |- rel _ _ _ _ (stn _ _ _) _ => apply like_stn; first [solve [lens'] | eqlen]
  | |- rel _ _ _ _ (match Sse2.unpack_ui8x3_i16x2_4x ?s ?l with _ => _ end) (match Sse2.unpack_ui8x3_i16x2_4x _ ?l' with _ => _ end) =>
      two (el_sse2_unpack3 s l l' ltac:(assumption))
  | |- rel _ _ _ _ (match Avx2.unpack_ui8x3_i16x2_8x ?s ?l with _ => _ end) (match Avx2.unpack_ui8x3_i16x2_8x _ ?l' with _ => _ end) =>
      two (el_avx2_unpack3 s l l' ltac:(assumption))
  | |- rel _ _ _ _ (match Sse2.i16_to_i16x2_8x ?l with _ => _ end) (match Sse2.i16_to_i16x2_8x ?l' with _ => _ end) =>
      two (el_sse2_double l l' ltac:(lens'))
  | |- rel _ _ _ _ (match Avx2.i16_to_i16x2_16x ?l with _ => _ end) (match Avx2.i16_to_i16x2_16x ?l' with _ => _ end) =>
      two (el_avx2_double l l' ltac:(lens'))
  | |- rel _ _ _ _ (match Sse2.pack_i16x3_8x ?v ?r ?g ?b with _ => _ end) (match Sse2.pack_i16x3_8x _ ?r' ?g' ?b' with _ => _ end) =>
      two (el_sse2_pack3 v r r' g g' b b' ltac:(lens') ltac:(lens') ltac:(lens'))
  | |- rel _ _ _ _ (match Avx2.pack_i16x3_16x ?v ?r ?g ?b with _ => _ end) (match Avx2.pack_i16x3_16x _ ?r' ?g' ?b' with _ => _ end) =>
      two (el_avx2_pack3 v r r' g g' b b' ltac:(lens') ltac:(lens') ltac:(lens'))
  | |- rel _ _ _ _ (match Avx2.pack_rgb_16x ?r ?g ?b with _ => _ end) (match Avx2.pack_rgb_16x ?r' ?g' ?b' with _ => _ end) =>
      two (el_avx2_packrgb r r' g g' b b' ltac:(lens') ltac:(lens') ltac:(lens'))
  | |- rel _ _ _ _ (match Sse2.chroma_8x ?c ?l ?r with _ => _ end) (match Sse2.chroma_8x _ ?l' ?r' with _ => _ end) =>
      three (el_sse2_chroma c l l' r r' ltac:(lens') ltac:(lens'))
  | |- rel _ _ _ _ (match Avx2.chroma_16x ?c ?l ?r with _ => _ end) (match Avx2.chroma_16x _ ?l' ?r' with _ => _ end) =>
      three (el_avx2_chroma c l l' r r' ltac:(lens') ltac:(lens'))
  | |- rel _ _ _ _ (wg_index _ _ _ _) _ => apply like_wg
  | |- rel _ _ _ _ (let '(_, _) := bgr_to_rgb_words ?a ?b ?c in _) (let '(_, _) := bgr_to_rgb_words ?a' ?b' ?c' in _) =>
      destruct (bgr_to_rgb_words a b c) as [[? ?] ?], (bgr_to_rgb_words a' b' c') as [[? ?] ?]
  | |- rel _ _ _ _ (match ?f with _ => _ end) (match ?f with _ => _ end) => destruct f
  | |- rel _ _ _ _ (match ?f with _ => _ end) (match ?g with _ => _ end) => let k := head f in unfold k
  | |- _ => rel_step HA
  end).

Lemma like_bgr_rgb : like_1_1 bgr_to_rgb.
Proof. intros w h ss s ds d _. unfold bgr_to_rgb. moves. Qed.
Lemma like_bgra_rgb : like_1_1 bgra_to_rgb.
Proof. intros w h ss s ds d _. unfold bgra_to_rgb. moves. Qed.
Lemma like_rgb_bgra : like_1_1 rgb_to_bgra.
Proof. intros w h ss s ds d _. unfold rgb_to_bgra. moves. Qed.

(** ** The vector kernels *)
Lemma like_sse2_nv12 smp dp c : like_1_2 (Sse2.rgb_to_nv12_sse2 smp dp c).
Proof. intros w h ss s ds d _. unfold Sse2.rgb_to_nv12_sse2. destruct smp; moves. Qed.
Lemma like_sse2_i420 smp dp c : like_1_3 (Sse2.rgb_to_i420_sse2 smp dp c).
Proof. intros w h ss s ds d _. unfold Sse2.rgb_to_i420_sse2. destruct smp; moves. Qed.
Lemma like_sse2_i444 smp dp c : like_1_3 (Sse2.rgb_to_i444_sse2 smp dp c).
Proof. intros w h ss s ds d _. unfold Sse2.rgb_to_i444_sse2. destruct smp; moves. Qed.
Lemma like_sse2_nv12_bgra c r : like_2_1 (Sse2.nv12_to_bgra_sse2 c r).
Proof. intros w h ss s ds d _. unfold Sse2.nv12_to_bgra_sse2. destruct r; moves. Qed.
Lemma like_sse2_i420_bgra c r : like_3_1 (Sse2.i420_to_bgra_sse2 c r).
Proof. intros w h ss s ds d _. unfold Sse2.i420_to_bgra_sse2. destruct r; moves. Qed.
Lemma like_sse2_i444_bgra c r : like_3_1 (Sse2.i444_to_bgra_sse2 c r).
Proof. intros w h ss s ds d _. unfold Sse2.i444_to_bgra_sse2. destruct r; moves. Qed.
Lemma like_sse2_rgb_bgra : like_1_1 Sse2.rgb_to_bgra_sse2.
Proof. intros w h ss s ds d _. unfold Sse2.rgb_to_bgra_sse2. moves. Qed.
Lemma like_avx2_nv12 smp dp c : like_1_2 (Avx2.rgb_to_nv12_avx2 smp dp c).
Proof. intros w h ss s ds d _. unfold Avx2.rgb_to_nv12_avx2. destruct smp; moves. Qed.
Lemma like_avx2_i420 smp dp c : like_1_3 (Avx2.rgb_to_i420_avx2 smp dp c).
Proof. intros w h ss s ds d _. unfold Avx2.rgb_to_i420_avx2. destruct smp; moves. Qed.
Lemma like_avx2_i444 smp dp c : like_1_3 (Avx2.rgb_to_i444_avx2 smp dp c).
Proof. intros w h ss s ds d _. unfold Avx2.rgb_to_i444_avx2. destruct smp; moves. Qed.
Lemma like_avx2_nv12_bgra c r : like_2_1 (Avx2.nv12_to_bgra_avx2 c r).
Proof. intros w h ss s ds d _. unfold Avx2.nv12_to_bgra_avx2. destruct r; moves. Qed.
Lemma like_avx2_nv12_rgb c : like_2_1 (Avx2.nv12_to_rgb_avx2 c).
Proof. intros w h ss s ds d _. unfold Avx2.nv12_to_rgb_avx2. moves. Qed.
Lemma like_avx2_i420_bgra c r : like_3_1 (Avx2.i420_to_bgra_avx2 c r).
Proof. intros w h ss s ds d _. unfold Avx2.i420_to_bgra_avx2. destruct r; moves. Qed.
Lemma like_avx2_i444_bgra c r : like_3_1 (Avx2.i444_to_bgra_avx2 c r).
Proof. intros w h ss s ds d _. unfold Avx2.i444_to_bgra_avx2. destruct r; moves. Qed.
Lemma like_avx2_rgb_bgra : like_1_1 Avx2.rgb_to_bgra_avx2.
Proof. intros w h ss s ds d _. unfold Avx2.rgb_to_bgra_avx2. moves. Qed.
Lemma like_avx2_bgr_rgb : like_1_1 Avx2.bgr_to_rgb_avx2.
Proof. intros w h ss s ds d _. unfold Avx2.bgr_to_rgb_avx2. moves. Qed.
Lemma like_avx2_bgra_rgb : like_1_1 Avx2.bgra_to_rgb_avx2.
Proof. intros w h ss s ds d _. unfold Avx2.bgra_to_rgb_avx2. moves. Qed.

Lemma el_member m n k x x' : length x = length x' -> length (Neon.member m n k x) = length (Neon.member m n k x').
Proof. intros _. unfold Neon.member. rewrite !map_length. reflexivity. Qed.
Lemma el_interleave n vs vs' : length vs = length vs' -> length (Neon.interleave n vs) = length (Neon.interleave n vs').
Proof. intros H. unfold Neon.interleave. apply flat_map_same. intros k. rewrite !map_length. exact H. Qed.
Lemma like_neon_nv12 smp dp c : like_1_2 (Neon.rgb_to_nv12_neon smp dp c).
Proof. intros w h ss s ds d _. unfold Neon.rgb_to_nv12_neon. destruct smp; moves. Qed.
Lemma like_neon_i420 smp dp c : like_1_3 (Neon.rgb_to_i420_neon smp dp c).
Proof. intros w h ss s ds d _. unfold Neon.rgb_to_i420_neon. destruct smp; moves. Qed.
Lemma like_neon_i444 smp dp c : like_1_3 (Neon.rgb_to_i444_neon smp dp c).
Proof. intros w h ss s ds d _. unfold Neon.rgb_to_i444_neon. destruct smp; moves. Qed.
Lemma like_reorder m out : (forall x x', length x = length x' -> length (out x) = length (out x')) -> like_1_1 (Neon.reorder_neon m out).
Proof.
  intros Ho w h ss s ds d _. unfold Neon.reorder_neon. apply rel_for; intros i. 
  apply rel_bind_eq; [apply rel_ures; exact HA|intros so]. apply rel_bind_eq; [apply rel_ures; exact HA|intros do_].
  apply rel_bind_eq; [|intros ?; apply rel_ret]. apply rel_loop; intros [a b]. unfold Neon.reorder_step16.
  eapply rel_bind; [apply like_ldn|intros x x' L]. cbv beta zeta in *.
  apply rel_bind_eq; [apply like_stn, el_interleave, Ho, L|intros ?].
  apply rel_bind_eq; [apply rel_ures; exact HA|intros so']. unfold zlen. rewrite (Ho _ _ L). moves.
Qed.
Lemma like_neon_bgr_rgb : like_1_1 Neon.bgr_to_rgb_neon.
Proof. apply like_reorder. reflexivity. Qed.
Lemma like_neon_bgra_rgb : like_1_1 Neon.bgra_to_rgb_neon.
Proof. apply like_reorder. reflexivity. Qed.
Lemma like_neon_rgb_bgra : like_1_1 Neon.rgb_to_bgra_neon.
Proof. apply like_reorder. reflexivity. Qed.

(** ** Vector and scalar part *)
Lemma like_from s i : like (fun a b => a = b /\ s_plane a = s_plane s) (slice_from s i) (slice_from s i).
Proof. unfold slice_from. apply rel_if; [|apply rel_raise]. apply rel_value. split; reflexivity. Qed.
Lemma like_from_src s i : is_src s -> like (fun a b => a = b /\ is_src a) (slice_from s i) (slice_from s i).
Proof. intros [n E]. eapply like_weaken; [|apply like_from]. intros a b [-> P]. split; [reflexivity|exists n; congruence]. Qed.
Ltac src_part H := eapply rel_bind; [apply like_from_src; exact H|intros ? ? [<- ?]].
Ltac dst_part := eapply rel_bind; [apply like_from|intros ? ? [<- _]].
Ltac product := apply rel_bind_eq; [apply rel_ures; exact HA|intros ?].
Lemma like_hyb_1_2 vp dp kv ks : like_1_2 kv -> like_1_2 ks -> like_1_2 (hyb_1_2 vp dp kv ks).
Proof.
  intros V K w h ss s ds d H. unfold hyb_1_2. cbv zeta. apply rel_bind_eq; [|intros _].
  - apply rel_if; [apply V, H|apply rel_ret].
  - apply rel_if; [|apply rel_ret]. product. src_part H. dst_part. dst_part. apply K. assumption.
Qed.
Lemma like_hyb_1_3 vp sub dp kv ks : like_1_3 kv -> like_1_3 ks -> like_1_3 (hyb_1_3 vp sub dp kv ks).
Proof.
  intros V K w h ss s ds [[d0 d1] d2] H. unfold hyb_1_3. cbv zeta. apply rel_bind_eq; [|intros _].
  - apply rel_if; [apply V, H|apply rel_ret].
  - apply rel_if; [|apply rel_ret]. product. src_part H. dst_part. dst_part. dst_part. apply K. assumption.
Qed.
Lemma like_hyb_2_1 vp dp kv ks : like_2_1 kv -> like_2_1 ks -> like_2_1 (hyb_2_1 vp dp kv ks).
Proof.
  intros V K w h ss [s0 s1] ds d H. unfold hyb_2_1. cbv zeta. apply rel_bind_eq; [|intros _].
  - apply rel_if; [apply V, H|apply rel_ret].
  - destruct H as [H0 H1]. cbn [fst snd] in *. apply rel_if; [|apply rel_ret]. product. src_part H0. src_part H1. dst_part. apply K. split; assumption.
Qed.
Lemma like_hyb_3_1 vp sub dp kv ks : like_3_1 kv -> like_3_1 ks -> like_3_1 (hyb_3_1 vp sub dp kv ks).
Proof.
  intros V K w h ss [[s0 s1] s2] ds d H. unfold hyb_3_1. cbv zeta. apply rel_bind_eq; [|intros _].
  - apply rel_if; [apply V, H|apply rel_ret].
  - destruct H as (H0 & H1 & H2). cbn [fst snd] in *. apply rel_if; [|apply rel_ret]. product.
    src_part H0. src_part H1. src_part H2. dst_part. apply K. repeat split; assumption.
Qed.
Lemma like_hyb_1_1 vp sd dd kv ks : like_1_1 kv -> like_1_1 ks -> like_1_1 (hyb_1_1 vp sd dd kv ks).
Proof.
  intros V K w h ss s ds d H. unfold hyb_1_1. cbv zeta. apply rel_bind_eq; [|intros _].
  - apply rel_if; [apply V, H|apply rel_ret].
  - apply rel_if; [|apply rel_ret]. product. product. src_part H. dst_part. apply K. assumption.
Qed.

(** ** The wrappers *)
Definition all_src (a : arr slice) : Prop := Forall is_src (adata a).
Lemma like_aidx {A} (a : arr A) i : like eq (aidx a i) (aidx a i).
Proof. unfold aidx. apply rel_if; [|apply rel_raise]. destruct (nth_error _ _); [apply rel_ret|apply rel_raise]. Qed.
Lemma like_aidx_src a i : all_src a -> like (fun x y => x = y /\ is_src x) (aidx a i) (aidx a i).
Proof.
  intros H. unfold aidx. apply rel_if; [|apply rel_raise]. destruct (nth_error _ _) eqn:E; [|apply rel_raise].
  apply rel_value. split; [reflexivity|]. apply nth_error_In in E. exact (proj1 (Forall_forall _ _) H _ E).
Qed.
Lemma like_oob a b c d : like eq (oob_call a b c d) (oob_call a b c d).
Proof. unfold oob_call. apply rel_bind_eq; [apply rel_ures; exact HA|intros ?]. apply rel_out_of_bounds. exact HA. Qed.
Lemma like_orM a b : like eq a a -> like eq b b -> like eq (orM a b) (orM a b).
Proof. intros Ha Hb. unfold orM. apply rel_bind_eq; [exact Ha|intros []; [apply rel_ret|exact Hb]]. Qed.
Lemma like_split s i : is_src s -> like (fun p q => p = q /\ src2 p) (split_at s i) (split_at s i).
Proof.
  intros [n E]. unfold split_at. apply rel_if; [|apply rel_raise]. apply rel_value.
  split; [reflexivity|]. split; exists n; exact E.
Qed.
Ltac wrapper Hs :=
  repeat lazymatch goal with
  | |- rel _ _ _ _ (if _ then _ else _) _ => apply rel_if
  | |- rel _ _ _ _ (ret _) _ => apply rel_ret
  | |- rel _ _ _ _ (bind (umul _ _) _) _ => product
  | |- rel _ _ _ _ (bind (aidx ?a _) _) _ =>
      first [constr_eq a Hs; fail 1 | idtac];
      match type of Hs with all_src a => eapply rel_bind; [apply like_aidx_src; exact Hs|intros ? ? [<- ?]]
      | _ => apply rel_bind_eq; [apply like_aidx|intros ?] end
  | |- rel _ _ _ _ (bind (orM _ _) _) _ => apply rel_bind_eq; [repeat first [apply like_orM|apply like_oob]|intros ?]
  end.

Lemma like_rgb_rgb_w sd dd k w h l ss sb l' ds db : like_1_1 k -> all_src sb ->
  like eq (rgb_rgb_w sd dd k w h l ss sb l' ds db) (rgb_rgb_w sd dd k w h l ss sb l' ds db).
Proof.
  intros K Hs. unfold rgb_rgb_w. cbv zeta. wrapper Hs.
  apply rel_bind_eq; [apply K; assumption|intros ?; apply rel_ret].
Qed.
Lemma like_rgb_i4xx_w sub dp k w h l ss sb l' ds db : like_1_3 k -> all_src sb ->
  like eq (rgb_i4xx_w sub dp k w h l ss sb l' ds db) (rgb_i4xx_w sub dp k w h l ss sb l' ds db).
Proof.
  intros K Hs. unfold rgb_i4xx_w. cbv zeta. wrapper Hs.
  apply rel_bind_eq; [apply K; assumption|intros ?; apply rel_ret].
Qed.
Lemma like_i4xx_rgb_w sub dp k w h l ss sb l' ds db : like_3_1 k -> all_src sb ->
  like eq (i4xx_rgb_w sub dp k w h l ss sb l' ds db) (i4xx_rgb_w sub dp k w h l ss sb l' ds db).
Proof.
  intros K Hs. unfold i4xx_rgb_w. cbv zeta. wrapper Hs.
  apply rel_bind_eq; [apply K; repeat split; assumption|intros ?; apply rel_ret].
Qed.
Lemma like_rgb_nv12_w dp k w h l ss sb l' ds db : like_1_2 k -> all_src sb ->
  like eq (rgb_nv12_w dp k w h l ss sb l' ds db) (rgb_nv12_w dp k w h l ss sb l' ds db).
Proof.
  intros K Hs. unfold rgb_nv12_w. cbv zeta. wrapper Hs. apply rel_bind_eq.
  - wrapper Hs. unfold split_at. repeat rel_step HA.
  - intros [[yb uvb]|]; [|apply rel_ret]. wrapper Hs. apply rel_bind_eq; [apply K; assumption|intros ?; apply rel_ret].
Qed.
Lemma like_nv12_rgb_w dp k w h l ss sb l' ds db : like_2_1 k -> all_src sb ->
  like eq (nv12_rgb_w dp k w h l ss sb l' ds db) (nv12_rgb_w dp k w h l ss sb l' ds db).
Proof.
  intros K Hs. unfold nv12_rgb_w. cbv zeta. wrapper Hs.
  apply (rel_bind T T sized (fun p q => p = q /\ match p with Some s => src2 s | None => True end)).
  - apply rel_if.
    + product. apply rel_if; [apply rel_value; auto|]. product.
      eapply rel_bind; [apply like_split; assumption|intros p q [<- P]]. apply rel_value. auto.
    + apply rel_value. split; [reflexivity|split; assumption].
  - intros [[yb uvb]|] b [<- P]; [|apply rel_ret]. wrapper Hs.
    apply rel_bind_eq; [apply K; assumption|intros ?; apply rel_ret].
Qed.
End Course.

(** ** The converters *)
Lemma like_x86 T c w h l ss sb l' ds db : all_src sb ->
  rel T T sized eq (x86_converter c w h l ss sb l' ds db) (x86_converter c w h l ss sb l' ds db).
Proof.
  intros H. destruct c as [s d|s d cs|s cs d]; [destruct s|destruct d|destruct s]; cbn [x86_converter];
    first [apply like_rgb_rgb_w|apply like_rgb_i4xx_w|apply like_rgb_nv12_w|apply like_i4xx_rgb_w|apply like_nv12_rgb_w]; try exact H;
    try destruct (pf_depth d =? 4);
    auto using like_bgr_rgb, like_bgra_rgb, like_rgb_bgra, like_rgb_nv12, like_rgb_i420, like_rgb_i444,
      like_nv12_bgra, like_nv12_rgb, like_i420_bgra, like_i444_bgra.
Qed.
Ltac hybrid H :=
  first [apply like_rgb_rgb_w|apply like_rgb_i4xx_w|apply like_rgb_nv12_w|apply like_i4xx_rgb_w|apply like_nv12_rgb_w]; try exact H;
  try match goal with |- context [pf_depth ?d =? ?n] => destruct (pf_depth d =? n) end;
  try first [apply like_hyb_1_1|apply like_hyb_1_2|apply like_hyb_1_3|apply like_hyb_2_1|apply like_hyb_3_1];
  auto using like_bgr_rgb, like_bgra_rgb, like_rgb_bgra, like_rgb_nv12, like_rgb_i420, like_rgb_i444,
    like_nv12_bgra, like_nv12_rgb, like_i420_bgra, like_i444_bgra.
Lemma like_sse2 T c w h l ss sb l' ds db : all_src sb ->
  rel T T sized eq (sse2_converter c w h l ss sb l' ds db) (sse2_converter c w h l ss sb l' ds db).
Proof.
  intros H. destruct c as [s d|s d cs|s cs d]; [destruct s|destruct d|destruct s]; cbn [sse2_converter]; hybrid H;
    auto using like_sse2_nv12, like_sse2_i420, like_sse2_i444, like_sse2_nv12_bgra, like_sse2_i420_bgra, like_sse2_i444_bgra, like_sse2_rgb_bgra.
Qed.
Lemma like_avx2 T c w h l ss sb l' ds db : all_src sb ->
  rel T T sized eq (avx2_converter c w h l ss sb l' ds db) (avx2_converter c w h l ss sb l' ds db).
Proof.
  intros H. destruct c as [s d|s d cs|s cs d]; [destruct s|destruct d|destruct s]; cbn [avx2_converter]; hybrid H;
    auto using like_avx2_nv12, like_avx2_i420, like_avx2_i444, like_avx2_nv12_bgra, like_avx2_nv12_rgb, like_avx2_i420_bgra, like_avx2_i444_bgra,
      like_avx2_rgb_bgra, like_avx2_bgr_rgb, like_avx2_bgra_rgb.
Qed.
Lemma like_neon T c w h l ss sb l' ds db : all_src sb ->
  rel T T sized eq (neon_converter c w h l ss sb l' ds db) (neon_converter c w h l ss sb l' ds db).
Proof.
  intros H. destruct c as [s d|s d cs|s cs d]; [destruct s|destruct d|apply like_x86, H]; cbn [neon_converter]; hybrid H;
    auto using like_neon_nv12, like_neon_i420, like_neon_i444, like_neon_bgr_rgb, like_neon_bgra_rgb, like_neon_rgb_bgra.
Qed.
Lemma like_converter T set c w h l ss sb l' ds db : all_src sb ->
  rel T T sized eq (converters set c w h l ss sb l' ds db) (converters set c w h l ss sb l' ds db).
Proof. destruct set; [apply like_x86|apply like_sse2|apply like_avx2|apply like_neon]. Qed.

(** ** Calls *)
Lemma like_convert_image T set w h sf ss sb df ds db : all_src sb ->
  rel T T sized eq (convert_image (converters set) w h sf ss sb df ds db) (convert_image (converters set) w h sf ss sb df ds db).
Proof. intros H. apply wrap_convert; intros; apply like_converter, H. Qed.

Lemma rel_course {A} T (c : M A) m m' : rel T T sized eq c c -> sized m m' -> same_course (c T m) (c T m').
Proof.
  intros H Hm. destruct (H m m' Hm) as [_ H']. clear H. rename H' into H. unfold same_course.
  destruct (c T m) as [o m1|f], (c T m') as [o' m2|g]; try exact H.
  destruct H as (E & H1 & H2 & _). auto.
Qed.
Lemma rel_positions {A} T (c : M A) m m' : rel T T sized eq c c -> sized m m' ->
  map position (fst (traced c T m)) = map position (fst (traced c T m')).
Proof. intros H Hm. apply (H m m' Hm). Qed.
Lemma slices_sizes mk bufs : forall bufs' i, same_sizes bufs bufs' -> slices_from mk i bufs = slices_from mk i bufs'.
Proof.
  induction bufs as [|b bufs IH]; intros [|b' bufs'] i H; try discriminate H; [reflexivity|].
  unfold same_sizes in H. cbn [map] in H. injection H as H1 H2. cbn [slices_from]. unfold zlen. rewrite H1.
  rewrite (IH bufs' (S i) H2). reflexivity.
Qed.
Lemma slices_src bufs : forall i, Forall is_src (slices_from Src i bufs).
Proof. induction bufs as [|b bufs IH]; intros i; cbn [slices_from]; constructor; [exists i; reflexivity|apply IH]. Qed.

Lemma convert_course set T w h src dst sb sb' db db' :
  same_sizes sb sb' -> same_sizes db db' -> of_bytes sb -> of_bytes sb' ->
  same_course (convert (converters set) T w h src dst sb db) (convert (converters set) T w h src dst sb' db').
Proof.
  intros H1 H2 B1 B2. unfold convert, rust_slices.
  rewrite (slices_sizes Src sb sb' 0 H1), (slices_sizes Dst db db' 0 H2).
  apply rel_course; [apply like_convert_image, slices_src|]. repeat split; assumption.
Qed.

Lemma convert_positions set T w h src dst sb sb' db db' :
  same_sizes sb sb' -> same_sizes db db' -> of_bytes sb -> of_bytes sb' ->
  map position (accesses (converters set) T w h src dst sb db) = map position (accesses (converters set) T w h src dst sb' db').
Proof.
  intros H1 H2 B1 B2. unfold accesses, rust_slices.
  rewrite (slices_sizes Src sb sb' 0 H1), (slices_sizes Dst db db' 0 H2).
  apply rel_positions; [apply like_convert_image, slices_src|]. repeat split; assumption.
Qed.

Lemma like_c_planes T mk ptrs n : forall i l, Forall (fun s => exists k, s_plane s = mk k) l ->
  rel T T sized (fun a b => a = b /\ match a with Some l => Forall (fun s => exists k, s_plane s = mk k) l | None => True end)
    (c_planes mk ptrs i n l) (c_planes mk ptrs i n l).
Proof.
  induction n as [|n IH]; intros i l H m1 m2 Hm; cbn [c_planes]; [split; [reflexivity|]; split; [split; auto|exact Hm]|].
  destruct (nth_error ptrs i) as [[|]|].
  - cbn [run traced]. apply (IH (S i) (l ++ [Slice (mk i) 0 (isize_max T)])); [|exact Hm].
    apply Forall_app. split; [exact H|]. constructor; [exists i; reflexivity|constructor].
  - split; [reflexivity|]. split; [split; auto|exact Hm].
  - split; reflexivity.
Qed.

Lemma like_dcp T set w h sf ss sp df ds dp e :
  rel T T sized eq (dcp_convert_image (converters set) w h sf ss sp df ds dp e) (dcp_convert_image (converters set) w h sf ss sp df ds dp e).
Proof.
  assert (HA : alike T T) by (split; reflexivity).
  unfold dcp_convert_image. destruct sf as [sf|], df as [df|], sp as [sp|], dp as [dp|]; try apply rel_ret.
  apply rel_if; [apply rel_ret|]. apply rel_bind_eq.
  { apply like_orM; (apply rel_bind_eq; [|intros ?; apply rel_ret]); unfold are_planes_compatible; repeat rel_step HA. }
  intros bad. apply rel_if; [apply rel_ret|].
  eapply rel_bind; [apply like_c_planes; constructor|intros sl sl' [<- Hs]]. destruct sl as [sl|]; [|apply rel_ret].
  eapply rel_bind; [apply like_c_planes; constructor|intros dl dl' [<- Hd]]. destruct dl as [dl|]; [|apply rel_ret].
  apply rel_bind_eq; [|intros []; apply rel_ret].
  apply (like_convert_image T set w h sf (option_map (Arr (isize_max T)) ss) (Arr MAX_NUMBER_OF_PLANES sl) df (option_map (Arr (isize_max T)) ds) (Arr MAX_NUMBER_OF_PLANES dl)).
  exact Hs.
Qed.
Lemma c_convert_course set T w h src dst sb sb' db db' e :
  same_sizes sb sb' -> same_sizes db db' -> of_bytes sb -> of_bytes sb' ->
  same_course (c_convert (converters set) T w h src dst sb db e) (c_convert (converters set) T w h src dst sb' db' e).
Proof.
  intros H1 H2 B1 B2. unfold c_convert.
  assert (L : forall b b', same_sizes b b' -> length b = length b').
  { intros b b' H. rewrite <- (map_length (@length Z) b), <- (map_length (@length Z) b'), H. reflexivity. }
  rewrite (L _ _ H1), (L _ _ H2). apply rel_course; [apply like_dcp|]. repeat split; assumption.
Qed.

Lemma c_convert_positions set T w h src dst sb sb' db db' e :
  same_sizes sb sb' -> same_sizes db db' -> of_bytes sb -> of_bytes sb' ->
  map position (c_accesses (converters set) T w h src dst sb db e) = map position (c_accesses (converters set) T w h src dst sb' db' e).
Proof.
  intros H1 H2 B1 B2. unfold c_accesses.
  assert (L : forall b b', same_sizes b b' -> length b = length b').
  { intros b b' H. rewrite <- (map_length (@length Z) b), <- (map_length (@length Z) b'), H. reflexivity. }
  rewrite (L _ _ H1), (L _ _ H2). apply rel_positions; [apply like_dcp|]. repeat split; assumption.
Qed.

(** ** Frames of the same layout *)
Lemma buf_len_sizes bufs bufs' n : same_sizes bufs bufs' -> buf_len bufs n = buf_len bufs' n.
Proof.
  intros H. unfold buf_len. pose proof (f_equal (fun l => nth n l (length (@nil Z))) H) as E. cbv beta in E.
  rewrite !map_nth in E. rewrite E. reflexivity.
Qed.
Lemma laid_out_sizes im w h bufs bufs' : same_sizes bufs bufs' -> laid_out im w h bufs -> laid_out im w h bufs'.
Proof.
  intros H [HI HR]. split; [|exact HR]. unfold image_in, plane_in in *. eapply Forall_impl; [|exact HI].
  intros g. cbv beta. rewrite (buf_len_sizes bufs bufs' (g_buf g) H). auto.
Qed.
Lemma buffers_ok_sizes lim bufs : forall bufs', same_sizes bufs bufs' -> of_bytes bufs' -> buffers_ok lim bufs -> buffers_ok lim bufs'.
Proof.
  unfold buffers_ok, of_bytes. induction bufs as [|b bufs IH]; intros [|b' bufs'] H B K; try discriminate H; [constructor|].
  unfold same_sizes in H. cbn [map] in H. injection H as H1 H2. inversion B; inversion K; subst.
  constructor; [split; [lia|assumption]|apply IH; assumption].
Qed.
Lemma buffers_ok_bytes lim bufs : buffers_ok lim bufs -> of_bytes bufs.
Proof. apply Forall_impl. intros b [_ H]. exact H. Qed.
Lemma every_frame set T w h src dst sb db m sb' db' : successful_call (converters set) T w h src dst sb db m ->
  same_sizes sb sb' -> same_sizes db db' -> of_bytes sb' -> of_bytes db' ->
  exists m', successful_call (converters set) T w h src dst sb' db' m'.
Proof.
  intros (HT & (Hw & Hh & P1 & P2 & S1 & S2 & B1 & B2) & W & H & L1 & L2 & E) Z1 Z2 F1 F2.
  pose proof (convert_course set T w h src dst sb sb' db db' Z1 Z2 (buffers_ok_bytes _ _ B1) F1) as C. rewrite E in C.
  destruct (convert (converters set) T w h src dst sb' db') as [o m'|] eqn:E'; [|contradiction].
  destruct C as [<- _]. exists m'. unfold successful_call.
  split; [exact HT|]. split; [|split; [exact W|]; split; [exact H|]; split; [exact (laid_out_sizes _ _ _ _ _ Z1 L1)|];
    split; [exact (laid_out_sizes _ _ _ _ _ Z2 L2)|exact E']].
  unfold well_formed. do 6 (split; [assumption|]).
  split; [exact (buffers_ok_sizes _ _ _ Z1 F1 B1)|exact (buffers_ok_sizes _ _ _ Z2 F2 B2)].
Qed.
