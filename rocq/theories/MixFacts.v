(** Mixtures of pictures: lemmas. *)
From Coq Require Import ZArith List Bool Lia ZifyBool ZifyNat.
Import ListNotations.
From Verif Require Import Base Fmt Wrappers CpuInfo Lib Spec SimdSpec SetSpec ApiSpec Sets Api PropFacts Itu PixelSpec ItuFacts PixelApi WhereSpec WhereFacts
  OnlyFacts MeanFacts MixSpec.
Open Scope Z_scope.

Lemma mean_iff a b k x y z : mean a b k x y z <->
  - (k * (a + b)) <= 2 * ((a + b) * z - (a * x + b * y)) /\ 2 * ((a + b) * z - (a * x + b * y)) <= k * (a + b).
Proof. unfold mean. lia. Qed.

(** Values rounded to the nearest of N-ths whose numerators mix. *)
Lemma mix_round a b N x y z X Y Z : 0 <= a -> 0 <= b -> 0 < N ->
  2 * N * x <= 2 * X + N -> 2 * X <= 2 * N * x + N ->
  2 * N * y <= 2 * Y + N -> 2 * Y <= 2 * N * y + N ->
  2 * N * z <= 2 * Z + N -> 2 * Z <= 2 * N * z + N ->
  2 * ((a + b) * Z - (a * X + b * Y)) <= N * (a + b) -> - (N * (a + b)) <= 2 * ((a + b) * Z - (a * X + b * Y)) ->
  mean a b 3 x y z.
Proof.
  intros A B P X1 X2 Y1 Y2 Z1 Z2 M1 M2. apply mean_iff.
  pose proof (Z.mul_le_mono_nonneg_l _ _ a A X1). pose proof (Z.mul_le_mono_nonneg_l _ _ a A X2).
  pose proof (Z.mul_le_mono_nonneg_l _ _ b B Y1). pose proof (Z.mul_le_mono_nonneg_l _ _ b B Y2).
  pose proof (Z.mul_le_mono_nonneg_l _ _ (a + b) ltac:(lia) Z1). pose proof (Z.mul_le_mono_nonneg_l _ _ (a + b) ltac:(lia) Z2).
  split; apply (Z.mul_le_mono_pos_l _ _ N P); ring_simplify in H; ring_simplify in H0; ring_simplify in H1; ring_simplify in H2;
    ring_simplify in H3; ring_simplify in H4; ring_simplify in M1; ring_simplify in M2; ring_simplify; lia.
Qed.

Lemma abs_scale w u K : 2 * Z.abs u <= K -> 2 * Z.abs (w * u) <= Z.abs w * K.
Proof.
  intros H. rewrite Z.abs_mul. pose proof (Z.mul_le_mono_nonneg_l _ _ (Z.abs w) (Z.abs_nonneg _) H) as N.
  replace (2 * (Z.abs w * Z.abs u)) with (Z.abs w * (2 * Z.abs u)) by ring. exact N.
Qed.

Lemma dot_mix a b k w p q r : 0 <= a -> 0 <= b -> 0 <= k -> mixed a b k p q r ->
  let '(w1, w2, w3) := w in
  2 * Z.abs ((a + b) * dot w r - (a * dot w p + b * dot w q)) <= (Z.abs w1 + Z.abs w2 + Z.abs w3) * (k * (a + b)).
Proof.
  destruct w as [[w1 w2] w3], p as [[p1 p2] p3], q as [[q1 q2] q3], r as [[r1 r2] r3].
  intros A B K (M1 & M2 & M3). unfold mean in *. cbn [dot].
  set (u1 := (a + b) * r1 - (a * p1 + b * q1)) in *. set (u2 := (a + b) * r2 - (a * p2 + b * q2)) in *. set (u3 := (a + b) * r3 - (a * p3 + b * q3)) in *.
  replace ((a + b) * (w1 * r1 + w2 * r2 + w3 * r3) - (a * (w1 * p1 + w2 * p2 + w3 * p3) + b * (w1 * q1 + w2 * q2 + w3 * q3)))
    with (w1 * u1 + w2 * u2 + w3 * u3) by (unfold u1, u2, u3; ring).
  clearbody u1 u2 u3.
  pose proof (abs_scale w1 u1 _ M1) as N1. pose proof (abs_scale w2 u2 _ M2) as N2. pose proof (abs_scale w3 u3 _ M3) as N3.
  rewrite !Z.mul_add_distr_r. revert N1 N2 N3. set (v1 := w1 * u1). set (v2 := w2 * u2). set (v3 := w3 * u3).
  generalize (Z.abs w1 * (k * (a + b))) (Z.abs w2 * (k * (a + b))) (Z.abs w3 * (k * (a + b))). clearbody v1 v2 v3. clear. lia.
Qed.

Lemma weights_small cs : (let '(a, b, c) := y_weights cs in Z.abs a + Z.abs b + Z.abs c <= 65536) /\
  (let '(a, b, c) := cb_weights cs in Z.abs a + Z.abs b + Z.abs c <= 65536) /\ (let '(a, b, c) := cr_weights cs in Z.abs a + Z.abs b + Z.abs c <= 65536).
Proof. destruct cs; repeat split; discriminate. Qed.

Lemma dot_mix_small a b k w p q r : 0 <= a -> 0 <= b -> 0 <= k -> mixed a b k p q r ->
  (let '(w1, w2, w3) := w in Z.abs w1 + Z.abs w2 + Z.abs w3 <= 65536) ->
  2 * ((a + b) * dot w r - (a * dot w p + b * dot w q)) <= k * 65536 * (a + b) /\
  - (k * 65536 * (a + b)) <= 2 * ((a + b) * dot w r - (a * dot w p + b * dot w q)).
Proof.
  intros A B K M W. pose proof (dot_mix a b k w p q r A B K M) as D. destruct w as [[w1 w2] w3].
  set (v := (a + b) * _ - _) in *. clearbody v.
  pose proof (Z.mul_le_mono_nonneg_r _ _ (k * (a + b)) ltac:(apply Z.mul_nonneg_nonneg; lia) W) as W'.
  replace (k * 65536 * (a + b)) with (65536 * (k * (a + b))) by ring. lia.
Qed.

Lemma luma_mix cs a b p q r : 0 <= a -> 0 <= b -> mixed a b 1 p q r -> mean a b 3 (luma cs p) (luma cs q) (luma cs r).
Proof.
  intros A B M. destruct (dot_mix_small a b 1 (y_weights cs) p q r A B ltac:(lia) M (proj1 (weights_small cs))) as [D1 D2].
  assert (R : mean a b 3 (luma cs p - y_min cs) (luma cs q - y_min cs) (luma cs r - y_min cs)).
  { unfold luma. apply (mix_round a b 65536 _ _ _ (dot (y_weights cs) p) (dot (y_weights cs) q) (dot (y_weights cs) r)); try lia;
      match goal with |- context [round_up ?t _] => pose proof (up_bounds t 65536 eq_refl) end; lia. }
  unfold mean in *. lia.
Qed.

Lemma chroma_mix cs (w : Z * Z * Z) u1 u2 u3 n a b p q r : 0 <= a -> 0 <= b -> n = 1 \/ n = 4 -> mixed a b n p q r ->
  w = cb_weights cs \/ w = cr_weights cs -> mean a b 3 (chroma u1 w n p) (chroma u2 w n q) (chroma u3 w n r).
Proof.
  intros A B Hn M W.
  assert (W' : let '(w1, w2, w3) := w in Z.abs w1 + Z.abs w2 + Z.abs w3 <= 65536) by (destruct W; subst w; apply (weights_small cs)).
  destruct (dot_mix_small a b n w p q r A B ltac:(lia) M W') as [D1 D2].
  pose proof (chroma_bounds u1 w n p Hn) as C1. pose proof (chroma_bounds u2 w n q Hn) as C2. pose proof (chroma_bounds u3 w n r Hn) as C3.
  cbv zeta in C1, C2, C3.
  assert (R : mean a b 3 (chroma u1 w n p - 128) (chroma u2 w n q - 128) (chroma u3 w n r - 128)).
  { apply (mix_round a b (n * 65536) _ _ _ (dot w p) (dot w q) (dot w r)); try lia; destruct Hn; subst n; lia. }
  unfold mean in *. lia.
Qed.

Lemma mixed_add a b k k' p q r p' q' r' : mixed a b k p q r -> mixed a b k' p' q' r' -> mixed a b (k + k') (add_rgb p p') (add_rgb q q') (add_rgb r r').
Proof.
  destruct p as [[p1 p2] p3], q as [[q1 q2] q3], r as [[r1 r2] r3], p' as [[p1' p2'] p3'], q' as [[q1' q2'] q3'], r' as [[r1' r2'] r3'].
  assert (K : forall x y z x' y' z', mean a b k x y z -> mean a b k' x' y' z' -> mean a b (k + k') (x + x') (y + y') (z + z')) by (unfold mean; intros; lia).
  intros (M1 & M2 & M3) (N1 & N2 & N3). repeat split; apply K; assumption.
Qed.

Section Encoded.
Variables (st1 st2 st3 : instruction_set) (T1 T2 T3 : target) (w h : Z) (src1 src2 src3 dst1 dst2 dst3 : image)
  (sb1 sb2 sb3 db1 db2 db3 : list (list Z)) (m1 m2 m3 : mem) (a b : Z).
Hypothesis S1 : successful_call (converters st1) T1 w h src1 dst1 sb1 db1 m1.
Hypothesis S2 : successful_call (converters st2) T2 w h src2 dst2 sb2 db2 m2.
Hypothesis S3 : successful_call (converters st3) T3 w h src3 dst3 sb3 db3 m3.
Hypothesis R1 : is_rgb (i_pf src1) = true.
Hypothesis R2 : is_rgb (i_pf src2) = true.
Hypothesis R3 : is_rgb (i_pf src3) = true.
Hypothesis Rd : is_rgb (i_pf dst1) = false.
Hypothesis P2 : i_pf dst2 = i_pf dst1.
Hypothesis P3 : i_pf dst3 = i_pf dst1.
Hypothesis C2 : i_cs dst2 = i_cs dst1.
Hypothesis C3 : i_cs dst3 = i_cs dst1.
Hypothesis A : 0 <= a.
Hypothesis B : 0 <= b.
Hypothesis M : forall x y, 0 <= x < w -> 0 <= y < h ->
  mixed a b 1 (pixel src1 w h sb1 x y) (pixel src2 w h sb2 x y) (pixel src3 w h sb3 x y).

Lemma area_mixed x y : 0 <= x < w -> 0 <= y < h ->
  exists n p q r, (n = 1 \/ n = 4) /\ chroma_area (i_pf dst1) (pixel src1 w h sb1) x y = (n, p) /\
    chroma_area (i_pf dst1) (pixel src2 w h sb2) x y = (n, q) /\ chroma_area (i_pf dst1) (pixel src3 w h sb3) x y = (n, r) /\
    mixed a b n p q r.
Proof.
  intros X Y. destruct (success_valid _ _ _ _ _ _ _ _ _ S1) as (_ & Vd & Su).
  assert (I : i_pf dst1 = I444 \/ i_pf dst1 = I420 \/ i_pf dst1 = Nv12) by (revert Su R1 Rd; destruct (i_pf src1), (i_pf dst1); try discriminate; auto).
  destruct I as [E|E].
  - rewrite E. cbn [chroma_area]. exists 1. do 3 eexists. split; [auto|]. split; [reflexivity|]. split; [reflexivity|]. split; [reflexivity|]. exact (M x y X Y).
  - destruct Vd as (_ & _ & V).
    assert (V' : w mod 2 = 0 /\ h mod 2 = 0) by (destruct E as [E|E]; rewrite E in V; exact V). clear V.
    assert (Xs : 0 <= 2 * (x / 2) /\ 2 * (x / 2) + 1 < w) by (pose proof (Z.div_mod w 2); pose proof (Z.div_mod x 2); pose proof (Z.mod_pos_bound x 2); lia).
    assert (Ys : 0 <= 2 * (y / 2) /\ 2 * (y / 2) + 1 < h) by (pose proof (Z.div_mod h 2); pose proof (Z.div_mod y 2); pose proof (Z.mod_pos_bound y 2); lia).
    assert (F : forall px, chroma_area (i_pf dst1) px x y = (4, block_sum px (x / 2) (y / 2))) by (intros px; destruct E as [-> | ->]; reflexivity).
    rewrite !F. exists 4. do 3 eexists. split; [auto|]. split; [reflexivity|]. split; [reflexivity|]. split; [reflexivity|].
    unfold block_sum. change 4 with (1 + 1 + (1 + 1)). repeat apply mixed_add; apply M; lia.
Qed.

Lemma encoded_mixed x y : 0 <= x < w -> 0 <= y < h ->
  mixed a b 3 (pixel dst1 w h (dsts m1) x y) (pixel dst2 w h (dsts m2) x y) (pixel dst3 w h (dsts m3) x y).
Proof.
  intros X Y. destruct (area_mixed x y X Y) as (n & p & q & r & Hn & A1 & A2 & A3 & Mx).
  rewrite (result_ycc _ _ _ _ _ _ _ _ _ S1 R1 Rd x y X Y), (result_ycc _ _ _ _ _ _ _ _ _ S2 R2 ltac:(rewrite P2; exact Rd) x y X Y),
    (result_ycc _ _ _ _ _ _ _ _ _ S3 R3 ltac:(rewrite P3; exact Rd) x y X Y).
  cbv zeta. rewrite P2, P3, C2, C3, A1, A2, A3. unfold mixed. split; [|split].
  - apply luma_mix; auto.
  - apply (chroma_mix (i_cs dst1)); auto.
  - apply (chroma_mix (i_cs dst1)); auto.
Qed.
End Encoded.

(** What is decoded: the formula, or blue 0. *)
Lemma formula_or_zero set T w h src dst sb db m : successful_call (converters set) T w h src dst sb db m ->
  is_rgb (i_pf src) = false -> is_rgb (i_pf dst) = true -> forall x y, 0 <= x < w -> 0 <= y < h ->
  let '(l, cb, cr) := pixel src w h sb x y in let '(r, g, b) := ycc_to_rgb (i_cs src) l cb cr in
  exists b0, pixel dst w h (dsts m) x y = (r, g, b0) /\ (b0 = 0 \/ b0 = b).
Proof.
  intros S Rs Rd x y X Y. pose proof (c15_exactly _ _ _ _ _ _ _ _ _ S Rs Rd x y X Y) as K.
  destruct (pixel src w h sb x y) as [[l cb] cr], (ycc_to_rgb (i_cs src) l cb cr) as [[r g] b]. cbv zeta in K.
  destruct (wraps_dec set (i_pf src) (i_pf dst) w x) as [W|W]; [destruct (fits_dec (i_cs src) (l, cb, cr)) as [Fi|Fi]|].
  - exists b. split; [apply (proj2 K); intros [_ Q]; exact (Q Fi)|auto].
  - exists 0. split; [apply (proj1 K); split; assumption|auto].
  - exists b. split; [apply (proj2 K); intros [Q _]; exact (W Q)|auto].
Qed.

(** Components within 1 1/8 below a linear formula of three samples. *)
Lemma mix_floor a b x y z X Y Z E : 0 <= a -> 0 <= b ->
  16384 * x <= X -> X <= 16384 * x + 18432 -> 16384 * y <= Y -> Y <= 16384 * y + 18432 -> 16384 * z <= Z -> Z <= 16384 * z + 18432 ->
  2 * ((a + b) * Z - (a * X + b * Y)) <= E * (a + b) -> - (E * (a + b)) <= 2 * ((a + b) * Z - (a * X + b * Y)) -> E <= 61440 ->
  mean a b 6 x y z.
Proof.
  intros A B X1 X2 Y1 Y2 Z1 Z2 M1 M2 HE. apply mean_iff.
  pose proof (Z.mul_le_mono_nonneg_l _ _ a A X1). pose proof (Z.mul_le_mono_nonneg_l _ _ a A X2).
  pose proof (Z.mul_le_mono_nonneg_l _ _ b B Y1). pose proof (Z.mul_le_mono_nonneg_l _ _ b B Y2).
  pose proof (Z.mul_le_mono_nonneg_l _ _ (a + b) ltac:(lia) Z1). pose proof (Z.mul_le_mono_nonneg_l _ _ (a + b) ltac:(lia) Z2).
  pose proof (Z.mul_le_mono_nonneg_r _ _ (a + b) ltac:(lia) HE). lia.
Qed.

Lemma component_mix a b w c p q r x y z : 0 <= a -> 0 <= b -> mixed a b 1 p q r ->
  (let '(w1, w2, w3) := w in Z.abs w1 + Z.abs w2 + Z.abs w3 <= 61440) ->
  16384 * x <= dot w p + c <= 16384 * x + 18432 -> 16384 * y <= dot w q + c <= 16384 * y + 18432 ->
  16384 * z <= dot w r + c <= 16384 * z + 18432 -> mean a b 6 x y z.
Proof.
  intros A B M W X Y Z. pose proof (dot_mix a b 1 w p q r A B ltac:(lia) M) as D. destruct w as [[w1 w2] w3].
  pose proof (Z.mul_le_mono_nonneg_r _ _ (1 * (a + b)) ltac:(lia) W) as W'.
  set (P := dot (w1, w2, w3) p) in *. set (Q := dot (w1, w2, w3) q) in *. set (R := dot (w1, w2, w3) r) in *. clearbody P Q R.
  assert (E : (a + b) * (R + c) - (a * (P + c) + b * (Q + c)) = (a + b) * R - (a * P + b * Q)) by ring.
  apply (mix_floor a b x y z (P + c) (Q + c) (R + c) 61440); try lia; rewrite E; lia.
Qed.

(** The components as sums of three products. *)
Definition weights_of (cs : color_space) : (Z * Z * Z) * (Z * Z * Z) * (Z * Z * Z) :=
  let '((ky, krr, krg, kbg, kbb), _) := rgb_coefs cs in ((ky, 0, krr), (ky, - kbg, - krg), (ky, kbb, 0)).
Definition offsets_of (cs : color_space) : Z * Z * Z :=
  let '(_, (o1, o2, o3)) := rgb_coefs cs in (- 256 * o1, 256 * o2 + 510, - 256 * o3).

Lemma free_bounds cs l cb cr : let '(r, g, b) := ycc_to_rgb cs l cb cr in
  let '(wr, wg, wb) := weights_of cs in let '(cr', cg', cb') := offsets_of cs in
  (free r -> 16384 * r <= dot wr (l, cb, cr) + cr' <= 16384 * r + 18432) /\
  (free g -> 16384 * g <= dot wg (l, cb, cr) + cg' <= 16384 * g + 18432) /\
  (free b -> 16384 * b <= dot wb (l, cb, cr) + cb' <= 16384 * b + 18432).
Proof.
  unfold ycc_to_rgb, rgb64, weights_of, offsets_of. destruct (rgb_coefs cs) as [[[[[ky krr] krg] kbg] kbb] [[o1 o2] o3]].
  cbn [dot]. unfold free.
  pose proof (div_near (l * ky) 256 eq_refl) as D1. pose proof (div_near (cr * krr) 256 eq_refl) as D2. pose proof (div_near (cr * krg) 256 eq_refl) as D3.
  pose proof (div_near (cb * kbg) 256 eq_refl) as D4. pose proof (div_near (cb * kbb) 256 eq_refl) as D5.
  split; [|split]; intros F; pose proof (inner _ _ F eq_refl) as I; revert I; generalize (clamp255 ((l * ky / 256 + (cr * krr / 256 - o1)) / 64));
   generalize (clamp255 ((l * ky / 256 + (o2 - cb * kbg / 256 - cr * krg / 256)) / 64)); generalize (clamp255 ((l * ky / 256 + (cb * kbb / 256 - o3)) / 64));
   revert D1 D2 D3 D4 D5; clear F; intros.
  - replace (ky * l + 0 * cb + krr * cr + -256 * o1) with (l * ky + cr * krr - 256 * o1) by ring.
    set (A := l * ky) in *. set (B := cr * krr) in *. clearbody A B. clear D3 D4 D5.
    set (u := A / 256) in *. set (v := B / 256) in *. clearbody u v. lia.
  - replace (ky * l + - kbg * cb + - krg * cr + (256 * o2 + 510)) with (l * ky - cb * kbg - cr * krg + 256 * o2 + 510) by ring.
    set (A := l * ky) in *. set (B := cb * kbg) in *. set (C := cr * krg) in *. clearbody A B C. clear D2 D5.
    set (u := A / 256) in *. set (v := B / 256) in *. set (t := C / 256) in *. clearbody u v t. lia.
  - replace (ky * l + kbb * cb + 0 * cr + -256 * o3) with (l * ky + cb * kbb - 256 * o3) by ring.
    set (A := l * ky) in *. set (B := cb * kbb) in *. clearbody A B. clear D2 D3 D4.
    set (u := A / 256) in *. set (v := B / 256) in *. clearbody u v. lia.
Qed.

Lemma weights_of_small cs : let '(wr, wg, wb) := weights_of cs in
  (let '(a, b, c) := wr in Z.abs a + Z.abs b + Z.abs c <= 61440) /\ (let '(a, b, c) := wg in Z.abs a + Z.abs b + Z.abs c <= 61440) /\
  (let '(a, b, c) := wb in Z.abs a + Z.abs b + Z.abs c <= 61440).
Proof. destruct cs; repeat split; discriminate. Qed.

Lemma decoded_formula cs a b p q r : 0 <= a -> 0 <= b -> mixed a b 1 p q r ->
  let '(l1, cb1, cr1) := p in let '(l2, cb2, cr2) := q in let '(l3, cb3, cr3) := r in
  let '(r1, g1, b1) := ycc_to_rgb cs l1 cb1 cr1 in let '(r2, g2, b2) := ycc_to_rgb cs l2 cb2 cr2 in let '(r3, g3, b3) := ycc_to_rgb cs l3 cb3 cr3 in
  (free r1 -> free r2 -> free r3 -> mean a b 6 r1 r2 r3) /\ (free g1 -> free g2 -> free g3 -> mean a b 6 g1 g2 g3) /\
  (free b1 -> free b2 -> free b3 -> mean a b 6 b1 b2 b3).
Proof.
  intros A B M. destruct p as [[l1 cb1] cr1], q as [[l2 cb2] cr2], r as [[l3 cb3] cr3].
  pose proof (free_bounds cs l1 cb1 cr1) as F1. pose proof (free_bounds cs l2 cb2 cr2) as F2. pose proof (free_bounds cs l3 cb3 cr3) as F3.
  pose proof (weights_of_small cs) as W.
  destruct (ycc_to_rgb cs l1 cb1 cr1) as [[r1 g1] b1], (ycc_to_rgb cs l2 cb2 cr2) as [[r2 g2] b2], (ycc_to_rgb cs l3 cb3 cr3) as [[r3 g3] b3].
  destruct (weights_of cs) as [[wr wg] wb], (offsets_of cs) as [[o1 o2] o3]. destruct W as (W1 & W2 & W3).
  destruct F1 as (F11 & F12 & F13), F2 as (F21 & F22 & F23), F3 as (F31 & F32 & F33).
  split; [|split]; intros.
  - apply (component_mix a b wr o1 (l1, cb1, cr1) (l2, cb2, cr2) (l3, cb3, cr3)); auto.
  - apply (component_mix a b wg o2 (l1, cb1, cr1) (l2, cb2, cr2) (l3, cb3, cr3)); auto.
  - apply (component_mix a b wb o3 (l1, cb1, cr1) (l2, cb2, cr2) (l3, cb3, cr3)); auto.
Qed.

Lemma decoded_mixed st1 st2 st3 T1 T2 T3 w h src1 src2 src3 dst1 dst2 dst3 sb1 sb2 sb3 db1 db2 db3 m1 m2 m3 a b :
  successful_call (converters st1) T1 w h src1 dst1 sb1 db1 m1 ->
  successful_call (converters st2) T2 w h src2 dst2 sb2 db2 m2 ->
  successful_call (converters st3) T3 w h src3 dst3 sb3 db3 m3 ->
  is_rgb (i_pf src1) = false -> is_rgb (i_pf src2) = false -> is_rgb (i_pf src3) = false ->
  is_rgb (i_pf dst1) = true -> is_rgb (i_pf dst2) = true -> is_rgb (i_pf dst3) = true ->
  i_cs src2 = i_cs src1 -> i_cs src3 = i_cs src1 -> 0 <= a -> 0 <= b ->
  forall x y, 0 <= x < w -> 0 <= y < h ->
  mixed a b 1 (pixel src1 w h sb1 x y) (pixel src2 w h sb2 x y) (pixel src3 w h sb3 x y) ->
  let '(r1, g1, b1) := pixel dst1 w h (dsts m1) x y in let '(r2, g2, b2) := pixel dst2 w h (dsts m2) x y in
  let '(r3, g3, b3) := pixel dst3 w h (dsts m3) x y in
  (free r1 -> free r2 -> free r3 -> mean a b 6 r1 r2 r3) /\ (free g1 -> free g2 -> free g3 -> mean a b 6 g1 g2 g3) /\
  (free b1 -> free b2 -> free b3 -> mean a b 6 b1 b2 b3).
Proof.
  intros S1 S2 S3 R1 R2 R3 D1 D2 D3 C2 C3 A B x y X Y M.
  pose proof (formula_or_zero _ _ _ _ _ _ _ _ _ S1 R1 D1 x y X Y) as F1. pose proof (formula_or_zero _ _ _ _ _ _ _ _ _ S2 R2 D2 x y X Y) as F2.
  pose proof (formula_or_zero _ _ _ _ _ _ _ _ _ S3 R3 D3 x y X Y) as F3. rewrite C2 in F2. rewrite C3 in F3.
  pose proof (decoded_formula (i_cs src1) a b _ _ _ A B M) as Q.
  destruct (pixel src1 w h sb1 x y) as [[l1 cb1] cr1], (pixel src2 w h sb2 x y) as [[l2 cb2] cr2], (pixel src3 w h sb3 x y) as [[l3 cb3] cr3].
  destruct (ycc_to_rgb (i_cs src1) l1 cb1 cr1) as [[r1 g1] b1], (ycc_to_rgb (i_cs src1) l2 cb2 cr2) as [[r2 g2] b2], (ycc_to_rgb (i_cs src1) l3 cb3 cr3) as [[r3 g3] b3].
  destruct F1 as (u1 & -> & U1), F2 as (u2 & -> & U2), F3 as (u3 & -> & U3). destruct Q as (Q1 & Q2 & Q3).
  split; [exact Q1|]. split; [exact Q2|]. clear Q1 Q2. intros H1 H2 H3.
  destruct U1 as [-> | ->]; [unfold free in H1; lia|]. destruct U2 as [-> | ->]; [unfold free in H2; lia|]. destruct U3 as [-> | ->]; [unfold free in H3; lia|].
  auto.
Qed.
