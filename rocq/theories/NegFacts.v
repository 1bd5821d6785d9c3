(** Negatives: lemmas. *)
From Coq Require Import ZArith List Bool Lia ZifyBool.
Import ListNotations.
From Verif Require Import Base Fmt Wrappers CpuInfo Lib Spec SimdSpec SetSpec ApiSpec Sets Api PropFacts Itu PixelSpec ItuFacts PixelApi WhereSpec WhereFacts
  OnlyFacts MeanFacts NegSpec.
Open Scope Z_scope.

Lemma luma_neg cs p : cs <> CsRgb -> lumas_add cs (luma cs p) (luma cs (negative p)).
Proof.
  intros N. unfold luma, lumas_add. destruct p as [[r g] b]. cbn [negative].
  pose proof (up_bounds (dot (y_weights cs) (r, g, b)) 65536 eq_refl) as U.
  pose proof (up_bounds (dot (y_weights cs) (255 - r, 255 - g, 255 - b)) 65536 eq_refl) as U'.
  set (u := round_up (dot (y_weights cs) (r, g, b)) 65536) in *.
  set (v := round_up (dot (y_weights cs) (255 - r, 255 - g, 255 - b)) 65536) in *. clearbody u v.
  destruct cs; try (contradiction (N eq_refl)); clear N; cbn [limited dot y_weights y_min] in *; lia.
Qed.

Lemma chroma_neg k n u u' p q : n = 1 \/ n = 4 -> dot k q = - dot k p ->
  Z.abs (chroma u k n p + chroma u' k n q - 256) <= 1 /\ (~ tie k n p -> chroma u k n p + chroma u' k n q = 256).
Proof.
  intros Hn E. pose proof (chroma_bounds u k n p Hn) as B. pose proof (chroma_bounds u' k n q Hn) as B'. cbv zeta in B, B'.
  rewrite E in B'. unfold tie. set (c := chroma u k n p) in *. set (c' := chroma u' k n q) in *. set (d := dot k p) in *. clearbody c c' d.
  assert (A : Z.abs (c + c' - 256) <= 1) by (destruct Hn; subst n; lia).
  split; [exact A|]. intros T. destruct (Z.eq_dec (c + c') 256) as [|NE]; [assumption|]. exfalso. apply T. clear T.
  assert (Q : c + c' = 257 \/ c + c' = 255) by lia.
  assert (D : exists j, 2 * d = 2 * (n * 65536) * j + n * 65536).
  { destruct Q as [Q|Q]; [exists (c - 129)|exists (c - 128)]; destruct Hn; subst n; lia. }
  destruct D as [j D]. rewrite D. rewrite Z.add_comm, (Z.mul_comm (2 * (n * 65536)) j), Z.mod_add by lia. apply Z.mod_small. lia.
Qed.

Lemma dot_neg cs p : dot (cb_weights cs) (negative p) = - dot (cb_weights cs) p /\ dot (cr_weights cs) (negative p) = - dot (cr_weights cs) p.
Proof. destruct p as [[r g] b], cs; cbn [negative dot cb_weights cr_weights]; lia. Qed.

Lemma dot_neg4 k p q r t : (forall p, dot k (negative p) = - dot k p) ->
  dot k (add_rgb (add_rgb (negative p) (negative q)) (add_rgb (negative r) (negative t))) = - dot k (add_rgb (add_rgb p q) (add_rgb r t)).
Proof. intros H. rewrite !dot_add, !H. lia. Qed.

Section Encoded.
Variables (set set' : instruction_set) (T T' : target) (w h : Z) (src src' dst dst' : image) (sb sb' db db' : list (list Z)) (m m' : mem).
Hypothesis S : successful_call (converters set) T w h src dst sb db m.
Hypothesis S' : successful_call (converters set') T' w h src' dst' sb' db' m'.
Hypothesis Rs : is_rgb (i_pf src) = true.
Hypothesis Rs' : is_rgb (i_pf src') = true.
Hypothesis Rd : is_rgb (i_pf dst) = false.
Hypothesis EP : i_pf dst' = i_pf dst.
Hypothesis EC : i_cs dst' = i_cs dst.
Hypothesis HP : forall x y, 0 <= x < w -> 0 <= y < h -> pixel src' w h sb' x y = negative (pixel src w h sb x y).

Lemma area_neg x y : 0 <= x < w -> 0 <= y < h ->
  exists n p q, (n = 1 \/ n = 4) /\ chroma_area (i_pf dst) (pixel src w h sb) x y = (n, p) /\
    chroma_area (i_pf dst) (pixel src' w h sb') x y = (n, q) /\
    forall k, (forall p, dot k (negative p) = - dot k p) -> dot k q = - dot k p.
Proof.
  intros X Y. destruct (success_valid _ _ _ _ _ _ _ _ _ S) as (_ & Vd & Su).
  assert (I : i_pf dst = I444 \/ i_pf dst = I420 \/ i_pf dst = Nv12) by (revert Su Rs Rd; destruct (i_pf src), (i_pf dst); try discriminate; auto).
  destruct I as [E|E].
  - rewrite E. cbn [chroma_area]. rewrite (HP x y X Y). exists 1. do 2 eexists. split; [auto|]. split; [reflexivity|]. split; [reflexivity|]. intros k K. apply K.
  - destruct Vd as (_ & _ & V).
    assert (V' : w mod 2 = 0 /\ h mod 2 = 0) by (destruct E as [E|E]; rewrite E in V; exact V). clear V.
    assert (Xs : 0 <= 2 * (x / 2) /\ 2 * (x / 2) + 1 < w) by (pose proof (Z.div_mod w 2); pose proof (Z.div_mod x 2); pose proof (Z.mod_pos_bound x 2); lia).
    assert (Ys : 0 <= 2 * (y / 2) /\ 2 * (y / 2) + 1 < h) by (pose proof (Z.div_mod h 2); pose proof (Z.div_mod y 2); pose proof (Z.mod_pos_bound y 2); lia).
    assert (A : forall px, chroma_area (i_pf dst) px x y = (4, block_sum px (x / 2) (y / 2))) by (intros px; destruct E as [-> | ->]; reflexivity).
    rewrite !A. exists 4. do 2 eexists. split; [auto|]. split; [reflexivity|]. split; [reflexivity|].
    intros k K. unfold block_sum. rewrite !HP by lia. apply dot_neg4. exact K.
Qed.

Lemma encoded_negative x y : 0 <= x < w -> 0 <= y < h ->
  let '(l, cb, cr) := pixel dst w h (dsts m) x y in let '(l', cb', cr') := pixel dst' w h (dsts m') x y in
  let '(n, p) := chroma_area (i_pf dst) (pixel src w h sb) x y in
  lumas_add (i_cs dst) l l' /\ Z.abs (cb + cb' - 256) <= 1 /\ Z.abs (cr + cr' - 256) <= 1 /\
  (~ tie (cb_weights (i_cs dst)) n p -> cb + cb' = 256) /\ (~ tie (cr_weights (i_cs dst)) n p -> cr + cr' = 256).
Proof.
  intros X Y. destruct (success_valid _ _ _ _ _ _ _ _ _ S) as (_ & Vd & _). pose proof (not_rgb _ _ _ Vd Rd) as N.
  destruct (area_neg x y X Y) as (n & p & q & Hn & A & A' & D).
  rewrite (result_ycc _ _ _ _ _ _ _ _ _ S Rs Rd x y X Y), (result_ycc _ _ _ _ _ _ _ _ _ S' Rs' ltac:(rewrite EP; exact Rd) x y X Y).
  cbv zeta. rewrite EP, EC, A, A', (HP x y X Y).
  destruct (chroma_neg (cb_weights (i_cs dst)) n (up_at set w x) (up_at set' w x) p q Hn (D _ (fun t => proj1 (dot_neg _ t)))) as [B1 B2].
  destruct (chroma_neg (cr_weights (i_cs dst)) n (up_at set w x) (up_at set' w x) p q Hn (D _ (fun t => proj2 (dot_neg _ t)))) as [C1 C2].
  split; [apply luma_neg; exact N|]. auto.
Qed.
End Encoded.
