(** Which colours become grey, black and white: lemmas. *)
From Coq Require Import ZArith List Bool Lia ZifyBool ZifyNat.
Import ListNotations.
From Verif Require Import Base Fmt Wrappers CpuInfo Lib Spec SimdSpec SetSpec ApiSpec Sets Api PropFacts Itu PixelSpec WhereSpec WhereFacts PixelApi WrapFacts OnlySpec.
Open Scope Z_scope.
Ltac Zify.zify_post_hook ::= Z.div_mod_to_equations.

Lemma round_half n d : 0 < d -> (round_up n d = 0 \/ round_down n d = 0) -> - d <= 2 * n <= d.
Proof.
  intros D. unfold round_down, round_up. intros [E|E].
  - pose proof (Z.div_mod (2 * n + d) (2 * d)) as K. pose proof (Z.mod_pos_bound (2 * n + d) (2 * d)). rewrite E in K. lia.
  - assert (E' : (2 * - n + d) / (2 * d) = 0) by lia.
    pose proof (Z.div_mod (2 * - n + d) (2 * d)) as K. pose proof (Z.mod_pos_bound (2 * - n + d) (2 * d)). rewrite E' in K. lia.
Qed.
Lemma only_grey cs n R G B : cs <> CsRgb -> 0 < n ->
  (- (n * 65536) <= 2 * dot (cb_weights cs) (R, G, B) <= n * 65536) -> (- (n * 65536) <= 2 * dot (cr_weights cs) (R, G, B) <= n * 65536) ->
  2 * Z.abs (R - G) <= 3 * n /\ 3 * Z.abs (B - G) <= 5 * n.
Proof. intros N P. destruct cs; try (contradiction (N eq_refl)); cbn [dot cb_weights cr_weights]; clear N; intros; lia. Qed.
Lemma round_near n k : round_up n 65536 = k -> (2 * k - 1) * 65536 <= 2 * n < (2 * k + 1) * 65536.
Proof.
  unfold round_up. change (2 * 65536) with 131072. intros E.
  pose proof (Z.div_mod (2 * n + 65536) 131072) as K. pose proof (Z.mod_pos_bound (2 * n + 65536) 131072) as L. rewrite E in K. lia.
Qed.
Lemma only_black cs r g b : cs <> CsRgb -> 0 <= r <= 255 -> 0 <= g <= 255 -> 0 <= b <= 255 ->
  luma cs (r, g, b) = y_min cs -> r <= 2 /\ g = 0 /\ b <= 8.
Proof.
  intros N R G B E. assert (K : round_up (dot (y_weights cs) (r, g, b)) 65536 = 0) by (unfold luma in E; lia).
  apply round_near in K. destruct cs; try (contradiction (N eq_refl)); cbn [dot y_weights] in K; clear N E; lia.
Qed.
Lemma only_white cs r g b : cs <> CsRgb -> 0 <= r <= 255 -> 0 <= g <= 255 -> 0 <= b <= 255 ->
  luma cs (r, g, b) = y_max cs -> 253 <= r /\ g = 255 /\ 247 <= b.
Proof.
  intros N R G B E. assert (K : round_up (dot (y_weights cs) (r, g, b)) 65536 = y_max cs - y_min cs) by (unfold luma in E; lia).
  apply round_near in K. destruct cs; try (contradiction (N eq_refl)); unfold y_max in K; cbn [dot y_weights y_min limited] in K; clear N E; lia.
Qed.

Lemma div_near a d : 0 < d -> d * (a / d) <= a < d * (a / d) + d.
Proof. intros D. pose proof (Z.div_mod a d). pose proof (Z.mod_pos_bound a d). lia. Qed.
Lemma inner v x : 0 < v < 255 -> clamp255 (x / 64) = v -> 64 * v <= x < 64 * v + 64.
Proof. unfold clamp255. intros V E. pose proof (div_near x 64). lia. Qed.
Lemma decoded_grey cs y cb cr v : cs <> CsRgb -> 0 <= cb <= 255 -> 0 <= cr <= 255 -> 0 < v < 255 ->
  ycc_to_rgb cs y cb cr = (v, v, v) -> cb = neutral cs /\ cr = neutral cs.
Proof.
  intros N CB CR V. unfold ycc_to_rgb, rgb64.
  destruct (rgb_coefs cs) as [[[[[ky krr] krg] kbg] kbb] [[o1 o2] o3]] eqn:C.
  intros E; injection E as E1 E2 E3. apply (inner v _ V) in E1. apply (inner v _ V) in E2. apply (inner v _ V) in E3.
  pose proof (div_near (cr * krr) 256 eq_refl) as D1. pose proof (div_near (cb * kbg) 256 eq_refl) as D2.
  pose proof (div_near (cr * krg) 256 eq_refl) as D3. pose proof (div_near (cb * kbb) 256 eq_refl) as D4.
  revert E1 E2 E3 D1 D2 D3 D4. generalize (y * ky / 256) (cr * krr / 256) (cb * kbg / 256) (cr * krg / 256) (cb * kbb / 256).
  intros l q1 q2 q3 q4 E1 E2 E3 D1 D2 D3 D4.
  destruct cs; try (contradiction (N eq_refl)); cbn [rgb_coefs] in C; injection C as <- <- <- <- <- <- <- <-; cbn [neutral]; clear N; lia.
Qed.

Lemma tie_down k n p d : 0 < n -> tie k n p -> round_down (dot k p) (n * 65536) + 1 = d -> d = 0 -> round_up (dot k p) (n * 65536) = 0.
Proof.
  unfold tie, round_down, round_up. intros N E Q Z0. set (m := n * 65536) in *. set (t := dot k p) in *.
  assert (M : 0 < m) by lia.
  pose proof (Z.div_mod (2 * t) (2 * m)) as K. rewrite E in K.
  assert (Q1 : (2 * - t + m) / (2 * m) = 1) by lia.
  pose proof (Z.div_mod (2 * - t + m) (2 * m)) as K1. pose proof (Z.mod_pos_bound (2 * - t + m) (2 * m)) as L1. rewrite Q1 in K1.
  set (q := 2 * t / (2 * m)) in *. assert (Hq : q = -1) by nia.
  apply Z.div_small. nia.
Qed.
Lemma chroma_neutral set w x k (f : Z) n p c : 0 < n -> f = 128 + round_down (dot k p) (n * 65536) ->
  (halves_up set w x /\ tie k n p -> c = f + 1) -> (~ (halves_up set w x /\ tie k n p) -> c = f) -> c = 128 ->
  - (n * 65536) <= 2 * dot k p <= n * 65536.
Proof.
  intros N F U D C. apply round_half; [lia|].
  assert (Dec : (halves_up set w x /\ tie k n p) \/ ~ (halves_up set w x /\ tie k n p)).
  { unfold halves_up, tie. destruct (Z.eq_dec ((2 * dot k p) mod (2 * (n * 65536))) (n * 65536)) as [E|E]; [|tauto].
    destruct (Z_lt_ge_dec x (8 * (w / 8))) as [X|X]; [|right; intros [[_ X'] _]; lia].
    destruct set; [right|right|right|left]; try (intros [[Q _] _]; discriminate Q). auto. }
  destruct Dec as [Y|Y].
  - left. apply (tie_down k n p _ N (proj2 Y) eq_refl). specialize (U Y). lia.
  - right. specialize (D Y). lia.
Qed.

Lemma not_rgb im w h : valid_image im w h -> is_rgb (i_pf im) = false -> i_cs im <> CsRgb.
Proof. intros (C & _) R E. apply C in E. congruence. Qed.
Lemma area_pos pf px x y : 0 < fst (chroma_area pf px x y).
Proof. destruct pf; cbn; lia. Qed.
Lemma encoded_grey set T w h src dst sb db m' : successful_call (converters set) T w h src dst sb db m' ->
  is_rgb (i_pf src) = true -> is_rgb (i_pf dst) = false ->
  forall x y, 0 <= x < w -> 0 <= y < h -> forall l, pixel dst w h (dsts m') x y = (l, 128, 128) ->
  let '(n, (r, g, b)) := chroma_area (i_pf dst) (pixel src w h sb) x y in
  2 * Z.abs (r - g) <= 3 * n /\ 3 * Z.abs (b - g) <= 5 * n.
Proof.
  intros S Rs Rd x y X Y l E. destruct (success_valid _ _ _ _ _ _ _ _ _ S) as (_ & Vd & _).
  pose proof (c14_exactly set T w h src dst sb db m' S Rs Rd x y X Y) as K. rewrite E in K.
  pose proof (area_pos (i_pf dst) (pixel src w h sb) x y) as P.
  destruct (chroma_area (i_pf dst) (pixel src w h sb) x y) as [n [[r g] b]]. cbn [fst] in P.
  destruct K as (_ & U1 & D1 & U2 & D2).
  apply (only_grey (i_cs dst)); [exact (not_rgb _ _ _ Vd Rd)|exact P|..].
  - exact (chroma_neutral set w x _ _ n (r, g, b) 128 P eq_refl U1 D1 eq_refl).
  - exact (chroma_neutral set w x _ _ n (r, g, b) 128 P eq_refl U2 D2 eq_refl).
Qed.
Lemma encoded_ends set T w h src dst sb db m' : successful_call (converters set) T w h src dst sb db m' ->
  is_rgb (i_pf src) = true -> is_rgb (i_pf dst) = false ->
  forall x y, 0 <= x < w -> 0 <= y < h ->
  let '(l, _, _) := pixel dst w h (dsts m') x y in
  let '(r, g, b) := pixel src w h sb x y in
  (l = y_min (i_cs dst) -> r <= 2 /\ g = 0 /\ b <= 8) /\ (l = y_max (i_cs dst) -> 253 <= r /\ g = 255 /\ 247 <= b).
Proof.
  intros S Rs Rd x y X Y. destruct (success_valid _ _ _ _ _ _ _ _ _ S) as (_ & Vd & _).
  pose proof (success_bytes _ _ _ _ _ _ _ _ _ x y S) as B.
  pose proof (c14_exactly set T w h src dst sb db m' S Rs Rd x y X Y) as K.
  destruct (pixel dst w h (dsts m') x y) as [[l cb] cr]. destruct (chroma_area (i_pf dst) (pixel src w h sb) x y) as [n p].
  destruct K as (L & _). destruct (pixel src w h sb x y) as [[r g] b]. unfold PixelFacts.is_byte in B.
  pose proof (not_rgb _ _ _ Vd Rd) as N. rewrite L.
  split; [apply only_black; tauto|apply only_white; tauto].
Qed.
Lemma decoded_grey_call set T w h src dst sb db m' : successful_call (converters set) T w h src dst sb db m' ->
  is_rgb (i_pf src) = false -> is_rgb (i_pf dst) = true ->
  forall x y, 0 <= x < w -> 0 <= y < h -> forall v, 0 < v < 255 -> pixel dst w h (dsts m') x y = (v, v, v) ->
  exists l, pixel src w h sb x y = (l, neutral (i_cs src), neutral (i_cs src)).
Proof.
  intros S Rs Rd x y X Y v V E. destruct (success_valid _ _ _ _ _ _ _ _ _ S) as (Vs & _ & _).
  pose proof (success_bytes _ _ _ _ _ _ _ _ _ x y S) as B.
  pose proof (c15_exactly set T w h src dst sb db m' S Rs Rd x y X Y) as K.
  destruct (pixel src w h sb x y) as [[l cb] cr]. unfold PixelFacts.is_byte in B.
  destruct (ycc_to_rgb (i_cs src) l cb cr) as [[r g] b] eqn:C. destruct K as [K1 K2].
  assert (D : ~ (blue_wraps set (i_pf src) (i_pf dst) w x /\ ~ blue_fits (i_cs src) (l, cb, cr))).
  { intros O. destruct (K1 O) as [_ Q]. rewrite E in Q. injection Q as Q1 Q2 Q3. lia. }
  rewrite (K2 D) in E. injection E as -> -> ->.
  destruct (decoded_grey (i_cs src) l cb cr v (not_rgb _ _ _ Vs Rs) ltac:(tauto) ltac:(tauto) V C) as [-> ->]. eauto.
Qed.
Lemma decoded_greys set T w h src dst sb db m' : successful_call (converters set) T w h src dst sb db m' ->
  is_rgb (i_pf src) = false -> is_rgb (i_pf dst) = true ->
  forall x y, 0 <= x < w -> 0 <= y < h ->
  (forall v, 0 < v < 255 -> pixel dst w h (dsts m') x y = (v, v, v) ->
     exists l, pixel src w h sb x y = (l, neutral (i_cs src), neutral (i_cs src))) /\
  (forall l, pixel src w h sb x y = (l, neutral (i_cs src), neutral (i_cs src)) ->
     exists v, pixel dst w h (dsts m') x y = (v, v, v)).
Proof.
  intros S Rs Rd x y X Y. split; [exact (decoded_grey_call _ _ _ _ _ _ _ _ _ S Rs Rd x y X Y)|]. intros l E.
  destruct (success_valid _ _ _ _ _ _ _ _ _ S) as (Vs & _ & _). pose proof (not_rgb _ _ _ Vs Rs) as N.
  destruct (limited (i_cs src)) eqn:L.
  - apply (c19_neutral_grey _ _ _ _ _ _ _ _ _ S Rs Rd L x y X Y l). rewrite E. destruct (i_cs src); try discriminate L; reflexivity.
  - exists l. apply (c19_full _ _ _ _ _ _ _ _ _ S Rs Rd L x y X Y l). rewrite E. destruct (i_cs src); try discriminate L; try contradiction (N eq_refl); reflexivity.
Qed.
