(** Brighter pictures: lemmas. *)
From Coq Require Import ZArith List Bool Lia ZifyBool ZifyNat.
Import ListNotations.
From Verif Require Import Base Fmt Wrappers CpuInfo Lib Spec SimdSpec SetSpec ApiSpec Sets Api PropFacts Itu PixelSpec WhereSpec WhereFacts
  OnlyFacts MeanFacts BrightSpec.
Open Scope Z_scope.

Lemma cb_grey cs k : dot (cb_weights cs) (grey k) = 0.
Proof. destruct cs; unfold grey; cbn [dot cb_weights]; lia. Qed.
Lemma cr_grey cs k : dot (cr_weights cs) (grey k) = 0.
Proof. destruct cs; unfold grey; cbn [dot cr_weights]; lia. Qed.
Lemma block_grey p q r t a b c d :
  add_rgb (add_rgb (add_rgb p (grey a)) (add_rgb q (grey b))) (add_rgb (add_rgb r (grey c)) (add_rgb t (grey d))) =
  add_rgb (add_rgb (add_rgb p q) (add_rgb r t)) (grey (a + b + (c + d))).
Proof.
  destruct p as [[p1 p2] p3], q as [[q1 q2] q3], r as [[r1 r2] r3], t as [[t1 t2] t3]. unfold add_rgb, grey. f_equal; [f_equal|]; lia.
Qed.

Lemma luma_grey cs p k : cs <> CsRgb -> Z.abs k <= 255 -> luma_follows cs k (luma cs (add_rgb p (grey k)) - luma cs p).
Proof.
  intros N K. unfold luma. rewrite dot_add. set (t := dot (y_weights cs) p).
  pose proof (up_bounds t 65536 eq_refl) as U. pose proof (up_bounds (t + dot (y_weights cs) (grey k)) 65536 eq_refl) as U'.
  set (a := round_up t 65536) in *. set (b := round_up (t + dot (y_weights cs) (grey k)) 65536) in *. clearbody a b t.
  unfold luma_follows. destruct cs; try (contradiction (N eq_refl)); clear N; unfold grey in U'; cbn [limited dot y_weights y_min] in *; lia.
Qed.

Lemma component ky k y q c c' : 0 < c < 255 -> 0 < c' < 255 -> Z.abs k <= 255 ->
  clamp255 ((y * ky / 256 + q) / 64) = c -> clamp255 (((y + k) * ky / 256 + q) / 64) = c' ->
  Z.abs (16384 * (c' - c) - ky * k) < 16384.
Proof.
  intros C C' K E E'. apply (inner c _ C) in E. apply (inner c' _ C') in E'.
  pose proof (div_near (y * ky) 256 eq_refl) as D. pose proof (div_near ((y + k) * ky) 256 eq_refl) as D'.
  revert E E' D D'. generalize (y * ky / 256) ((y + k) * ky / 256). intros. lia.
Qed.
Lemma follows cs k d : cs <> CsRgb -> Z.abs k <= 255 ->
  Z.abs (16384 * d - fst (fst (fst (fst (fst (rgb_coefs cs))))) * k) < 16384 ->
  if limited cs then Z.abs (219 * d - 255 * k) <= 219 else d = k.
Proof. intros N K. destruct cs; try (contradiction (N eq_refl)); clear N; cbn [limited rgb_coefs fst]; lia. Qed.

Lemma decoded_bright cs l cb cr k : cs <> CsRgb -> Z.abs k <= 255 ->
  let '(r, g, b) := ycc_to_rgb cs l cb cr in let '(r', g', b') := ycc_to_rgb cs (l + k) cb cr in
  component_follows cs k r r' /\ component_follows cs k g g' /\ component_follows cs k b b'.
Proof.
  intros N K. pose proof (follows cs k) as F. unfold ycc_to_rgb, rgb64, component_follows.
  destruct (rgb_coefs cs) as [[[[[ky krr] krg] kbg] kbb] [[o1 o2] o3]]. cbn [fst] in F.
  assert (G : forall q c c', c = clamp255 ((l * ky / 256 + q) / 64) -> c' = clamp255 (((l + k) * ky / 256 + q) / 64) ->
    0 < c < 255 -> 0 < c' < 255 -> if limited cs then Z.abs (219 * (c' - c) - 255 * k) <= 219 else c' = c + k).
  { intros q c c' E E' C C'. pose proof (F (c' - c) N K (component ky k l q c c' C C' K (eq_sym E) (eq_sym E'))) as R.
    destruct (limited cs); [exact R|lia]. }
  split; [|split]; apply (G _ _ _ eq_refl eq_refl).
Qed.

Lemma two_rounds (hu hu' t : Prop) f c c' : hu \/ ~ hu -> hu' \/ ~ hu' -> t \/ ~ t ->
  (hu /\ t -> c = f + 1) -> (~ (hu /\ t) -> c = f) -> (hu' /\ t -> c' = f + 1) -> (~ (hu' /\ t) -> c' = f) ->
  Z.abs (c' - c) <= 1 /\ ((hu <-> hu') -> c' = c).
Proof.
  intros [H|H] [H'|H'] [Q|Q] A1 A2 A3 A4;
    first [rewrite (A1 (conj H Q))|rewrite (A2 (fun K => H (proj1 K)))|rewrite (A2 (fun K => Q (proj2 K)))];
    first [rewrite (A3 (conj H' Q))|rewrite (A4 (fun K => H' (proj1 K)))|rewrite (A4 (fun K => Q (proj2 K)))];
    (split; [lia|intros [I1 I2]]); try reflexivity; exfalso; first [exact (H (I2 H'))|exact (H' (I1 H))].
Qed.

Section Encoded.
Variables (set set' : instruction_set) (T T' : target) (w h : Z) (src src' dst dst' : image) (sb sb' db db' : list (list Z)) (m m' : mem).
Variable k : Z -> Z -> Z.
Hypothesis S : successful_call (converters set) T w h src dst sb db m.
Hypothesis S' : successful_call (converters set') T' w h src' dst' sb' db' m'.
Hypothesis Rs : is_rgb (i_pf src) = true.
Hypothesis Rs' : is_rgb (i_pf src') = true.
Hypothesis Rd : is_rgb (i_pf dst) = false.
Hypothesis EP : i_pf dst' = i_pf dst.
Hypothesis EC : i_cs dst' = i_cs dst.
Hypothesis HP : forall x y, 0 <= x < w -> 0 <= y < h -> pixel src' w h sb' x y = add_rgb (pixel src w h sb x y) (grey (k x y)).

Lemma area_bright x y : 0 <= x < w -> 0 <= y < h ->
  exists n p K, chroma_area (i_pf dst) (pixel src w h sb) x y = (n, p) /\
    chroma_area (i_pf dst) (pixel src' w h sb') x y = (n, add_rgb p (grey K)).
Proof.
  intros X Y. destruct (success_valid _ _ _ _ _ _ _ _ _ S) as (_ & Vd & Su).
  assert (I : i_pf dst = I444 \/ i_pf dst = I420 \/ i_pf dst = Nv12) by (revert Su Rs Rd; destruct (i_pf src), (i_pf dst); try discriminate; auto).
  destruct I as [E|E].
  - rewrite E. cbn [chroma_area]. rewrite (HP x y X Y). do 3 eexists. split; reflexivity.
  - destruct Vd as (_ & _ & V).
    assert (V' : w mod 2 = 0 /\ h mod 2 = 0) by (destruct E as [E|E]; rewrite E in V; exact V). clear V.
    assert (Xs : 0 <= 2 * (x / 2) /\ 2 * (x / 2) + 1 < w) by (pose proof (Z.div_mod w 2); pose proof (Z.div_mod x 2); pose proof (Z.mod_pos_bound x 2); lia).
    assert (Ys : 0 <= 2 * (y / 2) /\ 2 * (y / 2) + 1 < h) by (pose proof (Z.div_mod h 2); pose proof (Z.div_mod y 2); pose proof (Z.mod_pos_bound y 2); lia).
    assert (A : forall px, chroma_area (i_pf dst) px x y = (4, block_sum px (x / 2) (y / 2))) by (intros px; destruct E as [-> | ->]; reflexivity).
    rewrite !A. do 2 eexists. exists (k (2 * (x / 2)) (2 * (y / 2)) + k (2 * (x / 2) + 1) (2 * (y / 2)) +
      (k (2 * (x / 2)) (2 * (y / 2) + 1) + k (2 * (x / 2) + 1) (2 * (y / 2) + 1))).
    split; [reflexivity|]. f_equal. unfold block_sum. rewrite !HP by lia. apply block_grey.
Qed.

Lemma encoded_bright x y : 0 <= x < w -> 0 <= y < h ->
  let '(l, cb, cr) := pixel dst w h (dsts m) x y in
  let '(l', cb', cr') := pixel dst' w h (dsts m') x y in
  luma_follows (i_cs dst) (k x y) (l' - l) /\ Z.abs (cb' - cb) <= 1 /\ Z.abs (cr' - cr) <= 1 /\
  ((set = Neon <-> set' = Neon) -> cb' = cb /\ cr' = cr).
Proof.
  intros X Y. destruct (success_valid _ _ _ _ _ _ _ _ _ S) as (_ & Vd & _).
  pose proof (not_rgb _ _ _ Vd Rd) as N. assert (Rd' : is_rgb (i_pf dst') = false) by (rewrite EP; exact Rd).
  pose proof (c14_exactly set T w h src dst sb db m S Rs Rd x y X Y) as K.
  pose proof (c14_exactly set' T' w h src' dst' sb' db' m' S' Rs' Rd' x y X Y) as K'.
  pose proof (success_bytes _ _ _ _ _ _ _ _ _ x y S) as B. pose proof (success_bytes _ _ _ _ _ _ _ _ _ x y S') as B'.
  rewrite EP, EC in K'. destruct (area_bright x y X Y) as (n & p & G & A & A'). rewrite A in K. rewrite A' in K'.
  assert (Hk : Z.abs (k x y) <= 255).
  { rewrite (HP x y X Y) in B'. destruct (pixel src w h sb x y) as [[r g] b]. unfold grey in B'. cbn [add_rgb] in B'. lia. }
  rewrite (HP x y X Y) in K'.
  destruct (pixel dst w h (dsts m) x y) as [[l cb] cr], (pixel dst' w h (dsts m') x y) as [[l' cb'] cr'].
  cbv zeta in K, K'. unfold blue_diff, red_diff, tie in *. rewrite !dot_add, cb_grey, cr_grey, !Z.add_0_r in K'.
  destruct K as (-> & U1 & D1 & U2 & D2), K' as (-> & U1' & D1' & U2' & D2').
  split; [apply luma_grey; assumption|]. clear - U1 D1 U2 D2 U1' D1' U2' D2'.
  set (tb := _ = _) in U1, D1, U1', D1'. assert (TB : tb \/ ~ tb) by (destruct (Z.eq_dec ((2 * dot (cb_weights (i_cs dst)) p) mod (2 * (n * 65536))) (n * 65536)); auto).
  set (tr := _ = _) in U2, D2, U2', D2'. assert (TR : tr \/ ~ tr) by (destruct (Z.eq_dec ((2 * dot (cr_weights (i_cs dst)) p) mod (2 * (n * 65536))) (n * 65536)); auto).
  pose proof (halves_dec set w x) as H. pose proof (halves_dec set' w x) as H'.
  assert (Q : (set = Neon <-> set' = Neon) -> (halves_up set w x <-> halves_up set' w x)) by (unfold halves_up; intros [I1 I2]; split; intros [A B]; auto).
  clearbody tb tr. set (hu := halves_up set w x) in *. set (hu' := halves_up set' w x) in *. clearbody hu hu'.
  pose proof (two_rounds hu hu' tb _ cb cb' H H' TB U1 D1 U1' D1') as [P1 P1']. pose proof (two_rounds hu hu' tr _ cr cr' H H' TR U2 D2 U2' D2') as [P2 P2'].
  split; [exact P1|]. split; [exact P2|]. intros I. split; [exact (P1' (Q I))|exact (P2' (Q I))].
Qed.
End Encoded.

Lemma decoded_call set set' T T' w h src src' dst dst' sb sb' db db' m m' k :
  successful_call (converters set) T w h src dst sb db m ->
  successful_call (converters set') T' w h src' dst' sb' db' m' ->
  is_rgb (i_pf src) = false -> is_rgb (i_pf src') = false -> is_rgb (i_pf dst) = true -> is_rgb (i_pf dst') = true ->
  i_cs src' = i_cs src ->
  forall x y, 0 <= x < w -> 0 <= y < h ->
  pixel src' w h sb' x y = add_rgb (pixel src w h sb x y) (k, 0, 0) ->
  let '(r, g, b) := pixel dst w h (dsts m) x y in let '(r', g', b') := pixel dst' w h (dsts m') x y in
  component_follows (i_cs src) k r r' /\ component_follows (i_cs src) k g g' /\ component_follows (i_cs src) k b b'.
Proof.
  intros S S' Rs Rs' Rd Rd' EC x y X Y HP. destruct (success_valid _ _ _ _ _ _ _ _ _ S) as (Vs & _ & _).
  pose proof (not_rgb _ _ _ Vs Rs) as N.
  pose proof (c15_exactly _ _ _ _ _ _ _ _ _ S Rs Rd x y X Y) as K. pose proof (c15_exactly _ _ _ _ _ _ _ _ _ S' Rs' Rd' x y X Y) as K'.
  pose proof (success_bytes _ _ _ _ _ _ _ _ _ x y S) as B. pose proof (success_bytes _ _ _ _ _ _ _ _ _ x y S') as B'.
  rewrite HP, EC in K'. rewrite HP in B'. destruct (pixel src w h sb x y) as [[l cb] cr]. cbn [add_rgb] in K', B'. rewrite !Z.add_0_r in K'.
  assert (Hk : Z.abs k <= 255) by lia. pose proof (decoded_bright (i_cs src) l cb cr k N Hk) as F.
  destruct (ycc_to_rgb (i_cs src) l cb cr) as [[r g] b], (ycc_to_rgb (i_cs src) (l + k) cb cr) as [[r' g'] b'].
  cbv zeta in K, K'.
  destruct F as (F1 & F2 & F3).
  assert (G : exists b0, pixel dst w h (dsts m) x y = (r, g, b0) /\ (b0 = 0 \/ b0 = b)).
  { destruct (wraps_dec set (i_pf src) (i_pf dst) w x) as [W|W]; [destruct (fits_dec (i_cs src) (l, cb, cr)) as [Fi|Fi]|].
    - exists b. split; [apply (proj2 K); intros [_ Q]; exact (Q Fi)|auto].
    - exists 0. split; [apply (proj1 K); split; assumption|auto].
    - exists b. split; [apply (proj2 K); intros [Q _]; exact (W Q)|auto]. }
  assert (G' : exists b0, pixel dst' w h (dsts m') x y = (r', g', b0) /\ (b0 = 0 \/ b0 = b')).
  { destruct (wraps_dec set' (i_pf src') (i_pf dst') w x) as [W|W]; [destruct (fits_dec (i_cs src) (l + k, cb, cr)) as [Fi|Fi]|].
    - exists b'. split; [apply (proj2 K'); intros [_ Q]; exact (Q Fi)|auto].
    - exists 0. split; [apply (proj1 K'); split; assumption|auto].
    - exists b'. split; [apply (proj2 K'); intros [Q _]; exact (W Q)|auto]. }
  destruct G as (b0 & -> & G), G' as (b0' & -> & G'). split; [exact F1|]. split; [exact F2|].
  destruct G as [-> | ->]; [unfold component_follows; lia|]. destruct G' as [-> | ->]; [unfold component_follows; lia|exact F3].
Qed.
