(** Proofs about pictures with their pixels moved, and about pictures that are alike. *)
From Coq Require Import ZArith List Bool Lia Permutation.
Import ListNotations.
From Verif Require Import Base Fmt Wrappers CpuInfo Lib Sets Spec SimdSpec SetSpec ApiSpec Api PropFacts
  Itu PixelSpec ItuFacts PixelApi CropFacts MoveSpec.
Open Scope Z_scope.

Definition sum_rgb (l : list rgb) : rgb := fold_right add_rgb (0, 0, 0) l.

Lemma sum_perm l l' : Permutation l l' -> sum_rgb l = sum_rgb l'.
Proof.
  intros P. induction P as [|p l l' P IH|p q l|l l' l'' P1 IH1 P2 IH2].
  - reflexivity.
  - cbn. fold (sum_rgb l) (sum_rgb l'). rewrite IH. reflexivity.
  - cbn. destruct p as [[? ?] ?], q as [[? ?] ?], (fold_right add_rgb (0, 0, 0) l) as [[? ?] ?]. cbn.
    apply (f_equal2 pair); [apply (f_equal2 pair)|]; lia.
  - congruence.
Qed.

Lemma block_sum_list px x y : block_sum px x y = sum_rgb (map (fun p => px (fst p) (snd p)) (block x y)).
Proof.
  unfold block_sum, sum_rgb, block. cbn [map fold_right fst snd].
  destruct (px (2 * x) (2 * y)) as [[? ?] ?], (px (2 * x + 1) (2 * y)) as [[? ?] ?],
    (px (2 * x) (2 * y + 1)) as [[? ?] ?], (px (2 * x + 1) (2 * y + 1)) as [[? ?] ?]. cbn.
  apply (f_equal2 pair); [apply (f_equal2 pair)|]; lia.
Qed.

Lemma in_block x y : In (x, y) (block (x / 2) (y / 2)).
Proof.
  pose proof (Z.div_mod x 2 ltac:(lia)). pose proof (Z.div_mod y 2 ltac:(lia)).
  pose proof (Z.mod_pos_bound x 2 ltac:(lia)). pose proof (Z.mod_pos_bound y 2 ltac:(lia)).
  assert (x = 2 * (x / 2) \/ x = 2 * (x / 2) + 1) as [Ex|Ex] by lia; assert (y = 2 * (y / 2) \/ y = 2 * (y / 2) + 1) as [Ey|Ey] by lia;
    rewrite Ex at 1; rewrite Ey at 1; unfold block; cbn [In]; auto.
Qed.

Lemma block_of x y bx by' : In (x, y) (block bx by') -> bx = x / 2 /\ by' = y / 2.
Proof.
  unfold block. cbn [In]. intros [E|[E|[E|[E|[]]]]]; apply pair_equal_spec in E; destruct E as [E1 E2]; split; Z.div_mod_to_equations; lia.
Qed.

Lemma moved_area pf (f : motion) (px px' : Z -> Z -> rgb) w' h' x y :
  (forall x y, 0 <= x < w' -> 0 <= y < h' -> px' x y = px (fst (f x y)) (snd (f x y))) ->
  pf = I444 \/ (w' mod 2 = 0 /\ h' mod 2 = 0 /\ blockwise f w' h') ->
  0 <= x < w' -> 0 <= y < h' ->
  chroma_area pf px' x y = chroma_area pf px (fst (f x y)) (snd (f x y)).
Proof.
  intros H HP Hx Hy. unfold chroma_area. destruct HP as [-> | (W & V & B)]; [rewrite H by lia; reflexivity|].
  assert (S : block_sum px' (x / 2) (y / 2) = block_sum px (fst (f x y) / 2) (snd (f x y) / 2)).
  { assert (Rx : 0 <= x / 2 < w' / 2) by (Z.div_mod_to_equations; lia).
    assert (Ry : 0 <= y / 2 < h' / 2) by (Z.div_mod_to_equations; lia).
    destruct (B _ _ Rx Ry) as (bx & by' & P).
    assert (I : In (fst (f x y), snd (f x y)) (block bx by')).
    { eapply Permutation_in; [exact P|]. rewrite <- surjective_pairing.
      apply (in_map (fun p => f (fst p) (snd p)) _ _ (in_block x y)). }
    destruct (block_of _ _ _ _ I) as [-> ->]. rewrite !block_sum_list.
    rewrite <- (sum_perm _ _ (Permutation_map (fun p => px (fst p) (snd p)) P)). rewrite map_map.
    unfold block. cbn [map fst snd]. rewrite !H by (Z.div_mod_to_equations; lia). reflexivity. }
  destruct pf; rewrite ?S, ?H by lia; reflexivity.
Qed.

(** Either the arithmetic is the same in all columns, or the pixel stays in its column. *)
Lemma moved_pixels set set' T T' w h w' h' f src src' dst dst' sb sb' db db' m m' :
  successful_call (converters set) T w h src dst sb db m ->
  successful_call (converters set') T' w' h' src' dst' sb' db' m' ->
  i_pf src = i_pf src' -> i_cs src = i_cs src' -> i_pf dst = i_pf dst' -> i_cs dst = i_cs dst' ->
  comes_from f w h w' h' ->
  (i_pf dst = I420 \/ i_pf dst = Nv12 -> blockwise f w' h') ->
  (forall x y, 0 <= x < w' -> 0 <= y < h' -> pixel src' w' h' sb' x y = pixel src w h sb (fst (f x y)) (snd (f x y))) ->
  forall x y, 0 <= x < w' -> 0 <= y < h' ->
  (set = set' /\ w = w' /\ fst (f x y) = x) \/
  ((is_rgb (i_pf src) = true -> is_rgb (i_pf dst) = false -> set <> Neon /\ set' <> Neon) /\
   (is_rgb (i_pf src) = false -> saturates set (i_cs src) (pixel src' w' h' sb' x y) /\
                                saturates set' (i_cs src) (pixel src' w' h' sb' x y))) ->
  pixel dst' w' h' (dsts m') x y = pixel dst w h (dsts m) (fst (f x y)) (snd (f x y)).
Proof.
  intros H H' E1 E2 E3 E4 FR HB HP x y Hx Hy HC.
  destruct (success_valid _ _ _ _ _ _ _ _ _ H) as (_ & _ & Sup).
  destruct (success_valid _ _ _ _ _ _ _ _ _ H') as (_ & (_ & _ & Zd) & _).
  destruct (FR x y Hx Hy) as [Fx Fy].
  destruct (is_rgb (i_pf src)) eqn:Rs.
  - assert (Rs' : is_rgb (i_pf src') = true) by congruence. destruct (is_rgb (i_pf dst)) eqn:Rd.
    + assert (Rd' : is_rgb (i_pf dst') = true) by congruence.
      rewrite (c21 _ _ _ _ _ _ _ _ _ H Rs Rd) by lia. rewrite (c21 _ _ _ _ _ _ _ _ _ H' Rs' Rd') by lia. apply HP; lia.
    + assert (Rd' : is_rgb (i_pf dst') = false) by congruence.
      rewrite (result_ycc _ _ _ _ _ _ _ _ _ H Rs Rd) by lia.
      rewrite (result_ycc _ _ _ _ _ _ _ _ _ H' Rs' Rd') by lia. cbv zeta.
      assert (U : up_at set' w' x = up_at set w (fst (f x y))).
      { destruct HC as [(-> & -> & ->) | (N & _)]; [reflexivity|].
        destruct (N eq_refl eq_refl) as [N1 N2]. rewrite !up_not_neon by assumption. reflexivity. }
      rewrite U. rewrite <- E3, <- E4.
      rewrite (moved_area (i_pf dst) f (pixel src w h sb) (pixel src' w' h' sb') w' h' x y HP); auto.
      * rewrite HP by lia. reflexivity.
      * rewrite <- E3 in Zd. destruct (i_pf dst); try discriminate; try (left; reflexivity); cbn [valid_size] in Zd;
          try (right; intuition fail). destruct (i_pf src); discriminate.
  - assert (Rs' : is_rgb (i_pf src') = false) by congruence.
    assert (Rd : is_rgb (i_pf dst) = true) by (destruct (i_pf src), (i_pf dst); try discriminate; reflexivity).
    assert (Rd' : is_rgb (i_pf dst') = true) by congruence.
    destruct HC as [(-> & -> & Fe) | (_ & HF)].
    + rewrite (c15 _ _ _ _ _ _ _ _ _ H Rs Rd) by lia. rewrite (c15 _ _ _ _ _ _ _ _ _ H' Rs' Rd') by lia.
      rewrite HP by lia. rewrite <- E1, <- E2, <- E3. rewrite Fe. reflexivity.
    + destruct (HF eq_refl) as [F F'].
      rewrite (c15_exact _ _ _ _ _ _ _ _ _ H Rs Rd) by (try lia; rewrite <- HP by lia; exact F).
      rewrite (c15_exact _ _ _ _ _ _ _ _ _ H' Rs' Rd') by (try lia; rewrite <- E2; exact F').
      rewrite HP by lia. rewrite E2. reflexivity.
Qed.

Ltac permute4 :=
  match goal with
  | |- Permutation (?a :: ?l) (?b :: ?r) =>
      first
      [ replace a with b by (apply (f_equal2 pair); lia); apply perm_skip
      | (* bring the first element of the right side to the front of the left one *)
        match l with
        | [?b1; ?c; ?d] =>
            first [ replace b1 with b by (apply (f_equal2 pair); lia);
                    apply (Permutation_trans (l' := [b; a; c; d])); [apply perm_swap|apply perm_skip]
                  | replace c with b by (apply (f_equal2 pair); lia);
                    apply (Permutation_trans (l' := [b; a; b1; d]));
                    [apply (Permutation_trans (l' := [a; b; b1; d])); [apply perm_skip, perm_swap|apply perm_swap]|apply perm_skip]
                  | replace d with b by (apply (f_equal2 pair); lia);
                    apply (Permutation_trans (l' := [b; a; b1; c]));
                    [symmetry; apply (Permutation_cons_append [a; b1; c] b)|apply perm_skip] ]
        | [?b1; ?c] =>
            first [ replace b1 with b by (apply (f_equal2 pair); lia);
                    apply (Permutation_trans (l' := [b; a; c])); [apply perm_swap|apply perm_skip]
                  | replace c with b by (apply (f_equal2 pair); lia);
                    apply (Permutation_trans (l' := [b; a; b1]));
                    [symmetry; apply (Permutation_cons_append [a; b1] b)|apply perm_skip] ]
        | [?b1] =>
            replace b1 with b by (apply (f_equal2 pair); lia);
            apply (Permutation_trans (l' := [b; a])); [apply perm_swap|apply perm_skip]
        end ]
  | |- Permutation [] [] => apply perm_nil
  end.

Lemma motions w h : 0 <= w -> 0 <= h ->
  comes_from (mirrored w) w h w h /\ comes_from (upside_down h) w h w h /\
  comes_from transposed w h h w /\ comes_from (turned h) w h h w /\
  (w mod 2 = 0 -> h mod 2 = 0 ->
   blockwise (mirrored w) w h /\ blockwise (upside_down h) w h /\ blockwise transposed h w /\ blockwise (turned h) h w) /\
  (forall x0 y0 w' h', 0 <= x0 -> x0 + w' <= w -> 0 <= y0 -> y0 + h' <= h ->
   comes_from (cut x0 y0) w h w' h' /\ (x0 mod 2 = 0 -> y0 mod 2 = 0 -> blockwise (cut x0 y0) w' h')).
Proof.
  intros W H. unfold comes_from, mirrored, upside_down, transposed, turned, cut. cbn [fst snd].
  split; [lia|]. split; [lia|]. split; [lia|]. split; [lia|]. split.
  - intros W2 H2. pose proof (Z.div_mod w 2 ltac:(lia)). pose proof (Z.div_mod h 2 ltac:(lia)).
    repeat apply conj; intros x y Hx Hy; unfold block; cbn [map fst snd].
    + exists (w / 2 - 1 - x), y. repeat permute4.
    + exists x, (h / 2 - 1 - y). repeat permute4.
    + exists y, x. repeat permute4.
    + exists y, (h / 2 - 1 - x). repeat permute4.
  - intros x0 y0 w' h' X0 X1 Y0 Y1. split; [lia|]. intros X2 Y2 x y Hx Hy. unfold block; cbn [map fst snd].
    pose proof (Z.div_mod x0 2 ltac:(lia)). pose proof (Z.div_mod y0 2 ltac:(lia)).
    exists (x0 / 2 + x), (y0 / 2 + y). repeat permute4.
Qed.

Lemma moved_partial set set' T T' w h w' h' f src src' dst dst' sb sb' db db' m m' :
  successful_call (converters set) T w h src dst sb db m ->
  successful_call (converters set') T' w' h' src' dst' sb' db' m' ->
  i_pf src = i_pf src' -> i_cs src = i_cs src' -> i_pf dst = i_pf dst' -> i_cs dst = i_cs dst' ->
  comes_from f w h w' h' ->
  (i_pf dst = I420 \/ i_pf dst = Nv12 -> blockwise f w' h') ->
  (forall x y, 0 <= x < w' -> 0 <= y < h' -> pixel src' w' h' sb' x y = pixel src w h sb (fst (f x y)) (snd (f x y))) ->
  (is_rgb (i_pf src) = true -> is_rgb (i_pf dst) = false -> set <> Neon /\ set' <> Neon) ->
  forall x y, 0 <= x < w' -> 0 <= y < h' ->
  (is_rgb (i_pf src) = false -> saturates set (i_cs src) (pixel src' w' h' sb' x y) /\
                                saturates set' (i_cs src) (pixel src' w' h' sb' x y)) ->
  pixel dst' w' h' (dsts m') x y = pixel dst w h (dsts m) (fst (f x y)) (snd (f x y)).
Proof. intros. eapply moved_pixels; eauto. Qed.

Lemma flipped set T T' w h src src' dst dst' sb sb' db db' m m' :
  successful_call (converters set) T w h src dst sb db m ->
  successful_call (converters set) T' w h src' dst' sb' db' m' ->
  i_pf src = i_pf src' -> i_cs src = i_cs src' -> i_pf dst = i_pf dst' -> i_cs dst = i_cs dst' ->
  (forall x y, 0 <= x < w -> 0 <= y < h -> pixel src' w h sb' x y = pixel src w h sb x (h - 1 - y)) ->
  forall x y, 0 <= x < w -> 0 <= y < h ->
  pixel dst' w h (dsts m') x y = pixel dst w h (dsts m) x (h - 1 - y).
Proof.
  intros H H' E1 E2 E3 E4 HP x y Hx Hy.
  destruct (motions w h ltac:(lia) ltac:(lia)) as (_ & M & _ & _ & B & _).
  change (pixel dst' w h (dsts m') x y = pixel dst w h (dsts m) (fst (upside_down h x y)) (snd (upside_down h x y))).
  eapply moved_pixels; eauto.
  intros Ed. destruct (success_valid _ _ _ _ _ _ _ _ _ H) as (_ & (_ & _ & Zd) & _).
  assert (w mod 2 = 0 /\ h mod 2 = 0) as [? ?] by (destruct Ed as [Ed|Ed]; rewrite Ed in Zd; exact Zd).
  destruct B as (_ & B & _); auto.
Qed.

(** ** Similar pictures *)

Lemma div_alike a b n d : 0 < n -> - (n * d) <= a - b <= n * d -> - d <= a / n - b / n <= d.
Proof. intros N H. pose proof (Z.div_mod a n ltac:(lia)). pose proof (Z.div_mod b n ltac:(lia)).
  pose proof (Z.mod_pos_bound a n N). pose proof (Z.mod_pos_bound b n N). nia. Qed.

Lemma dot_alike k p p' d e : 0 <= d ->
  (let '(a, b, c) := k in Z.abs a + Z.abs b + Z.abs c <= e) -> within (d, d, d) p p' ->
  - (e * d) <= dot k p - dot k p' <= e * d.
Proof.
  destruct k as [[a b] c], p as [[r g] b0], p' as [[r' g'] b']. intros D E (A & B & C). unfold dot.
  assert (M : forall u v, Z.abs v <= d -> - (Z.abs u * d) <= u * v <= Z.abs u * d).
  { intros u v V. assert (Z.abs (u * v) <= Z.abs u * d); [|lia]. rewrite Z.abs_mul. apply Z.mul_le_mono_nonneg_l; lia. }
  pose proof (M a (r - r') A). pose proof (M b (g - g') B). pose proof (M c (b0 - b') C).
  pose proof (Z.mul_le_mono_nonneg_r _ _ d D E) as Q. rewrite !Z.mul_add_distr_r in Q.
  set (x := Z.abs a * d) in *. set (y := Z.abs b * d) in *. set (z := Z.abs c * d) in *. clearbody x y z. clear M A B C E. lia.
Qed.

Lemma luma_alike cs p p' d : 0 <= d -> within (d, d, d) p p' -> Z.abs (luma cs p - luma cs p') <= d.
Proof.
  intros D W. pose proof (dot_alike (y_weights cs) p p' d 65536 D ltac:(destruct cs; vm_compute; discriminate) W) as H.
  unfold luma, round_up. set (u := dot _ p) in *. set (v := dot _ p') in *.
  pose proof (div_alike (2 * u + 65536) (2 * v + 65536) (2 * 65536) d ltac:(lia) ltac:(lia)). lia.
Qed.

Lemma chroma_alike up cs n p p' d : n = 1 \/ n = 4 -> 0 <= d -> within (n * d, n * d, n * d) p p' ->
  Z.abs (chroma up (cb_weights cs) n p - chroma up (cb_weights cs) n p') <= d /\
  Z.abs (chroma up (cr_weights cs) n p - chroma up (cr_weights cs) n p') <= d.
Proof.
  intros N D W. assert (N0 : 0 < n) by lia.
  assert (K : forall k, - (65536 * (n * d)) <= dot k p - dot k p' <= 65536 * (n * d) ->
    Z.abs (chroma up k n p - chroma up k n p') <= d).
  { intros k H. unfold chroma, round_down, round_up. set (u := dot _ p) in *. set (v := dot _ p') in *. destruct up.
    - pose proof (div_alike (2 * u + n * 65536) (2 * v + n * 65536) (2 * (n * 65536)) d ltac:(lia) ltac:(nia)). lia.
    - pose proof (div_alike (2 * - u + n * 65536) (2 * - v + n * 65536) (2 * (n * 65536)) d ltac:(lia) ltac:(nia)). lia. }
  split; apply K; apply dot_alike; try assumption; try lia; destruct cs; vm_compute; discriminate.
Qed.

Lemma block_alike px px' d x y w h : w mod 2 = 0 -> h mod 2 = 0 -> 0 <= x < w -> 0 <= y < h ->
  (forall x' y', 0 <= x' < w -> 0 <= y' < h -> x' / 2 = x / 2 -> y' / 2 = y / 2 -> within (d, d, d) (px x' y') (px' x' y')) ->
  within (4 * d, 4 * d, 4 * d) (block_sum px (x / 2) (y / 2)) (block_sum px' (x / 2) (y / 2)).
Proof.
  intros W H Hx Hy P. unfold block_sum.
  pose proof (P (2 * (x / 2)) (2 * (y / 2)) ltac:(Z.div_mod_to_equations; lia) ltac:(Z.div_mod_to_equations; lia) ltac:(Z.div_mod_to_equations; lia) ltac:(Z.div_mod_to_equations; lia)) as A1.
  pose proof (P (2 * (x / 2) + 1) (2 * (y / 2)) ltac:(Z.div_mod_to_equations; lia) ltac:(Z.div_mod_to_equations; lia) ltac:(Z.div_mod_to_equations; lia) ltac:(Z.div_mod_to_equations; lia)) as A2.
  pose proof (P (2 * (x / 2)) (2 * (y / 2) + 1) ltac:(Z.div_mod_to_equations; lia) ltac:(Z.div_mod_to_equations; lia) ltac:(Z.div_mod_to_equations; lia) ltac:(Z.div_mod_to_equations; lia)) as A3.
  pose proof (P (2 * (x / 2) + 1) (2 * (y / 2) + 1) ltac:(Z.div_mod_to_equations; lia) ltac:(Z.div_mod_to_equations; lia) ltac:(Z.div_mod_to_equations; lia) ltac:(Z.div_mod_to_equations; lia)) as A4.
  clear P. revert A1 A2 A3 A4.
  repeat match goal with |- context [px ?a ?b] => destruct (px a b) as [[? ?] ?] end.
  repeat match goal with |- context [px' ?a ?b] => destruct (px' a b) as [[? ?] ?] end.
  unfold within, add_rgb. rewrite !Z.abs_le. lia.
Qed.

Lemma encoded_similar set T T' w h src src' dst dst' sb sb' db db' m m' d :
  successful_call (converters set) T w h src dst sb db m ->
  successful_call (converters set) T' w h src' dst' sb' db' m' ->
  is_rgb (i_pf src) = true -> is_rgb (i_pf src') = true -> is_rgb (i_pf dst) = false ->
  i_pf dst = i_pf dst' -> i_cs dst = i_cs dst' -> 0 <= d ->
  forall x y, 0 <= x < w -> 0 <= y < h ->
  (forall x' y', 0 <= x' < w -> 0 <= y' < h -> x' / 2 = x / 2 -> y' / 2 = y / 2 ->
     within (d, d, d) (pixel src w h sb x' y') (pixel src' w h sb' x' y')) ->
  within (d, d, d) (pixel dst w h (dsts m) x y) (pixel dst' w h (dsts m') x y).
Proof.
  intros H H' Rs Rs' Rd E3 E4 D x y Hx Hy P.
  destruct (success_valid _ _ _ _ _ _ _ _ _ H) as (_ & (_ & _ & Zd) & Sup).
  rewrite (result_ycc _ _ _ _ _ _ _ _ _ H Rs Rd x y Hx Hy).
  rewrite (result_ycc _ _ _ _ _ _ _ _ _ H' Rs' ltac:(rewrite <- E3; exact Rd) x y Hx Hy). cbv zeta.
  rewrite <- E3, <- E4. pose proof (P x y Hx Hy eq_refl eq_refl) as P0.
  pose proof (luma_alike (i_cs dst) _ _ d D P0) as L. unfold chroma_area.
  assert (B : i_pf dst = I420 \/ i_pf dst = Nv12 ->
    within (4 * d, 4 * d, 4 * d) (block_sum (pixel src w h sb) (x / 2) (y / 2)) (block_sum (pixel src' w h sb') (x / 2) (y / 2))).
  { intros Ed. assert (w mod 2 = 0 /\ h mod 2 = 0) as [? ?] by (destruct Ed as [Ed|Ed]; rewrite Ed in Zd; exact Zd).
    apply block_alike with (w := w) (h := h); auto. }
  destruct (i_pf dst) eqn:Ed; try discriminate Rd.
  - destruct (chroma_alike (up_at set w x) (i_cs dst) 1 _ _ d (or_introl eq_refl) D ltac:(rewrite Z.mul_1_l; exact P0)) as [C1 C2]. cbn [within]. auto.
  - destruct (i_pf src); discriminate Sup.
  - destruct (chroma_alike (up_at set w x) (i_cs dst) 4 _ _ d (or_intror eq_refl) D (B ltac:(auto))) as [C1 C2]. cbn [within]. auto.
  - destruct (chroma_alike (up_at set w x) (i_cs dst) 4 _ _ d (or_intror eq_refl) D (B ltac:(auto))) as [C1 C2]. cbn [within]. auto.
Qed.

Lemma clamp_alike a b d : Z.abs (a - b) <= d -> Z.abs (clamp255 a - clamp255 b) <= d.
Proof. unfold clamp255. lia. Qed.

(** A product divided by 256, with 1 for the rounding. *)
Lemma term_alike a b k d : 0 <= k -> - d <= a - b <= d -> - (k * d + 255) <= 256 * (a * k / 256 - b * k / 256) <= k * d + 255.
Proof.
  intros K H. pose proof (Z.div_mod (a * k) 256 ltac:(lia)). pose proof (Z.div_mod (b * k) 256 ltac:(lia)).
  pose proof (Z.mod_pos_bound (a * k) 256 ltac:(lia)). pose proof (Z.mod_pos_bound (b * k) 256 ltac:(lia)). nia.
Qed.

Lemma rgb_alike cs l cb cr l' cb' cr' d : 0 <= d -> within (d, d, d) (l, cb, cr) (l', cb', cr') ->
  within (3 * d, 3 * d, 4 * d) (ycc_to_rgb cs l cb cr) (ycc_to_rgb cs l' cb' cr').
Proof.
  intros D (A & B & C). destruct (Z.eq_dec d 0) as [->|D0].
  { replace l' with l by lia. replace cb' with cb by lia. replace cr' with cr by lia.
    destruct (ycc_to_rgb cs l cb cr) as [[r g] b]. unfold within. lia. }
  unfold ycc_to_rgb, rgb64.
  assert (H : forall cs, let '((ky, krr, krg, kbg, kbb), _) := rgb_coefs cs in
    (0 <= ky /\ 0 <= krr /\ 0 <= krg /\ 0 <= kbg /\ 0 <= kbb) /\
    ky + krr <= 48449 /\ ky + krg + kbg <= 38816 /\ ky + kbb <= 53687) by (intros []; vm_compute; intuition discriminate).
  specialize (H cs). destruct (rgb_coefs cs) as [[[[[ky krr] krg] kbg] kbb] [[o1 o2] o3]].
  destruct H as ((K1 & K2 & K3 & K4 & K5) & S1 & S2 & S3).
  assert (A' : - d <= l - l' <= d) by lia. assert (B' : - d <= cb - cb' <= d) by lia. assert (C' : - d <= cr - cr' <= d) by lia.
  pose proof (term_alike _ _ ky d K1 A') as Ty. pose proof (term_alike _ _ krr d K2 C') as Trr.
  pose proof (term_alike _ _ krg d K3 C') as Trg. pose proof (term_alike _ _ kbg d K4 B') as Tbg. pose proof (term_alike _ _ kbb d K5 B') as Tbb.
  set (ty := l * ky / 256) in *. set (ty' := l' * ky / 256) in *. set (trr := cr * krr / 256) in *. set (trr' := cr' * krr / 256) in *.
  set (trg := cr * krg / 256) in *. set (trg' := cr' * krg / 256) in *. set (tbg := cb * kbg / 256) in *. set (tbg' := cb' * kbg / 256) in *.
  set (tbb := cb * kbb / 256) in *. set (tbb' := cb' * kbb / 256) in *.
  clearbody ty ty' trr trr' trg trg' tbg tbg' tbb tbb'.
  assert (M1 : (ky + krr) * d <= 48449 * d) by (apply Z.mul_le_mono_nonneg_r; assumption). assert (M2 : (ky + krg + kbg) * d <= 38816 * d) by (apply Z.mul_le_mono_nonneg_r; assumption).
  assert (M3 : (ky + kbb) * d <= 53687 * d) by (apply Z.mul_le_mono_nonneg_r; assumption).
  rewrite Z.mul_add_distr_r in M1, M3. rewrite !Z.mul_add_distr_r in M2.
  split; [|split]; apply clamp_alike;
    match goal with |- Z.abs (?a / 64 - ?b / 64) <= ?e => pose proof (div_alike a b 64 e ltac:(lia) ltac:(lia)); lia end.
Qed.

Lemma decoded_similar set set' T T' w w' h h' src src' dst dst' sb sb' db db' m m' d :
  successful_call (converters set) T w h src dst sb db m ->
  successful_call (converters set') T' w' h' src' dst' sb' db' m' ->
  is_rgb (i_pf src) = false -> is_rgb (i_pf src') = false -> is_rgb (i_pf dst) = true -> is_rgb (i_pf dst') = true ->
  i_cs src = i_cs src' -> 0 <= d ->
  forall x y x' y', 0 <= x < w -> 0 <= y < h -> 0 <= x' < w' -> 0 <= y' < h' ->
  within (d, d, d) (pixel src w h sb x y) (pixel src' w' h' sb' x' y') ->
  (set = X86 \/ set = Neon \/ blue_fits (i_cs src) (pixel src w h sb x y)) ->
  (set' = X86 \/ set' = Neon \/ blue_fits (i_cs src) (pixel src' w' h' sb' x' y')) ->
  within (3 * d, 3 * d, 4 * d) (pixel dst w h (dsts m) x y) (pixel dst' w' h' (dsts m') x' y').
Proof.
  intros H H' Rs Rs' Rd Rd' Ec D x y x' y' Hx Hy Hx' Hy' P F F'.
  rewrite (c15_exact _ _ _ _ _ _ _ _ _ H Rs Rd x y Hx Hy F).
  rewrite (c15_exact _ _ _ _ _ _ _ _ _ H' Rs' Rd' x' y' Hx' Hy' ltac:(rewrite <- Ec; exact F')).
  rewrite <- Ec. destruct (pixel src w h sb x y) as [[l cb] cr], (pixel src' w' h' sb' x' y') as [[l' cb'] cr'].
  apply rgb_alike; auto.
Qed.
