(** Facts behind the theorems that say exactly when a decoded pixel has its property. *)
From Coq Require Import ZArith QArith Qabs Qminmax Lqa List Bool Lia ZifyBool.
Import ListNotations.
From Verif Require Import Base Fmt ResultFacts Wrappers CpuInfo Lib Sets Spec SimdSpec SetSpec ApiSpec Api PixelFacts PropFacts
  Itu PixelSpec DocSpec ItuFacts PixelProps PixelApi DocFacts MoveSpec MoveFacts RouteSpec RouteFacts WhereSpec WhereFacts WrapSpec.
Open Scope Z_scope.
Ltac Zify.zify_post_hook ::= Z.div_mod_to_equations.

Lemma over_dec set src dst w h sb x y : overflows set src dst w h sb x y \/ ~ overflows set src dst w h sb x y.
Proof.
  unfold overflows. destruct (wraps_dec set (i_pf src) (i_pf dst) w x), (fits_dec (i_cs src) (pixel src w h sb x y)); tauto.
Qed.
Lemma decoded set T w h src dst sb db m' : successful_call (converters set) T w h src dst sb db m' ->
  is_rgb (i_pf src) = false -> is_rgb (i_pf dst) = true ->
  forall x y, 0 <= x < w -> 0 <= y < h ->
  let '(l, cb, cr) := pixel src w h sb x y in
  (overflows set src dst w h sb x y -> exists r g, ycc_to_rgb (i_cs src) l cb cr = (r, g, 255) /\ pixel dst w h (dsts m') x y = (r, g, 0)) /\
  (~ overflows set src dst w h sb x y -> pixel dst w h (dsts m') x y = ycc_to_rgb (i_cs src) l cb cr).
Proof.
  intros HS Rs Rd x y Hx Hy. pose proof (c15_exactly _ _ _ _ _ _ _ _ _ HS Rs Rd x y Hx Hy) as E. unfold overflows.
  destruct (pixel src w h sb x y) as [[l cb] cr]. destruct (ycc_to_rgb (i_cs src) l cb cr) as [[r g] b]. cbv zeta in E.
  destruct E as [E1 E2]. split; [|exact E2]. intros O. destruct (E1 O) as [-> E]. exists r, g. auto.
Qed.
Lemma c18_exactly set T w h src dst sb db m' : successful_call (converters set) T w h src dst sb db m' ->
  is_rgb (i_pf src) = false -> is_rgb (i_pf dst) = true ->
  forall x y, 0 <= x < w -> 0 <= y < h ->
  let '(l, cb, cr) := pixel src w h sb x y in
  let '(r, g, b) := rgb64 (i_cs src) l cb cr in
  let '(r', g', b') := pixel dst w h (dsts m') x y in
  saturated r r' /\ saturated g g' /\ (saturated b b' <-> ~ overflows set src dst w h sb x y).
Proof.
  intros HS Rs Rd x y Hx Hy. pose proof (decoded _ _ _ _ _ _ _ _ _ HS Rs Rd x y Hx Hy) as E.
  destruct (over_dec set src dst w h sb x y) as [O|O].
  - pose proof (proj2 O) as F. destruct (pixel src w h sb x y) as [[l cb] cr]. destruct (proj1 E O) as (r' & g' & E1 & ->).
    unfold blue_fits in F. unfold ycc_to_rgb in E1. destruct (rgb64 (i_cs src) l cb cr) as [[r g] b]. cbn [snd] in F. injection E1 as <- <- _.
    split; [apply clamp_saturated|]. split; [apply clamp_saturated|]. split; [|tauto]. intros (_ & S & _). lia.
  - destruct (pixel src w h sb x y) as [[l cb] cr]. rewrite (proj2 E O). unfold ycc_to_rgb. destruct (rgb64 (i_cs src) l cb cr) as [[r g] b].
    split; [apply clamp_saturated|]. split; [apply clamp_saturated|]. split; [tauto|]. intros _. apply clamp_saturated.
Qed.
(** Blue grows by less than 512 - 1 over all lumas. *)
Lemma blue_span cs l l' cb cr : 0 <= l -> l' <= 255 -> ~ blue_fits cs (l', cb, cr) -> exists r g b, ycc_to_rgb cs l cb cr = (r, g, b) /\ 0 < b.
Proof.
  intros H1 H2 F. unfold blue_fits in F. unfold ycc_to_rgb, rgb64 in *.
  assert (K : forall cs, let '((ky, _, _, _, _), _) := rgb_coefs cs in 0 <= ky <= 19077) by (intros []; vm_compute; split; discriminate).
  specialize (K cs). destruct (rgb_coefs cs) as [[[[[ky krr] krg] kbg] kbb] [[o1 o2] o3]]. cbn [snd] in F.
  do 3 eexists. split; [reflexivity|].
  assert (0 <= l * ky) by (apply Z.mul_nonneg_nonneg; lia).
  assert (l' * ky <= 255 * ky) by (apply Z.mul_le_mono_nonneg_r; lia).
  assert (B1 : 0 <= l * ky / 256) by (apply Z.div_pos; lia).
  assert (B2 : l' * ky / 256 <= 255 * 19077 / 256) by (apply Z.div_le_mono; lia).
  change (255 * 19077 / 256) with 19002 in B2. set (a := cb * kbb / 256) in *. set (u := l * ky / 256) in *. set (u' := l' * ky / 256) in *.
  clearbody a u u'. unfold clamp255. lia.
Qed.
Lemma c34_exactly set set' T T' w w' h h' src src' dst dst' sb sb' db db' m1 m2 :
  successful_call (converters set) T w h src dst sb db m1 ->
  successful_call (converters set') T' w' h' src' dst' sb' db' m2 ->
  is_rgb (i_pf src) = false -> is_rgb (i_pf dst) = true ->
  is_rgb (i_pf src') = false -> is_rgb (i_pf dst') = true -> i_cs src = i_cs src' ->
  forall x y x' y', 0 <= x < w -> 0 <= y < h -> 0 <= x' < w' -> 0 <= y' < h' ->
  forall l l' cb cr, pixel src w h sb x y = (l, cb, cr) -> pixel src' w' h' sb' x' y' = (l', cb, cr) -> l <= l' ->
  (below (pixel dst w h (dsts m1) x y) (pixel dst' w' h' (dsts m2) x' y') <->
   (overflows set' src' dst' w' h' sb' x' y' -> overflows set src dst w h sb x y)).
Proof.
  intros H1 H2 Rs Rd Rs' Rd' Ec x y x' y' Hx Hy Hx' Hy' l l' cb cr E E' L.
  pose proof (decoded _ _ _ _ _ _ _ _ _ H1 Rs Rd x y Hx Hy) as D1. rewrite E in D1.
  pose proof (decoded _ _ _ _ _ _ _ _ _ H2 Rs' Rd' x' y' Hx' Hy') as D2. rewrite E', <- Ec in D2.
  pose proof (success_bytes _ _ _ _ _ _ _ _ _ x y H1) as B1. rewrite E in B1.
  pose proof (success_bytes _ _ _ _ _ _ _ _ _ x' y' H2) as B2. rewrite E' in B2.
  pose proof (rgb_mono (i_cs src) l l' cb cr L) as M.
  pose proof (blue_span (i_cs src) l l' cb cr ltac:(lia) ltac:(lia)) as S.
  destruct (over_dec set src dst w h sb x y) as [O1|O1], (over_dec set' src' dst' w' h' sb' x' y') as [O2|O2].
  - destruct (proj1 D1 O1) as (r & g & Y1 & ->), (proj1 D2 O2) as (r' & g' & Y2 & ->). rewrite Y1, Y2 in M. unfold below. split; [tauto|lia].
  - destruct (proj1 D1 O1) as (r & g & Y1 & ->). rewrite (proj2 D2 O2). rewrite Y1 in M.
    destruct (ycc_to_rgb (i_cs src) l' cb cr) as [[r' g'] b']. unfold below. split; [tauto|lia].
  - destruct (proj1 D2 O2) as (r' & g' & Y2 & ->). rewrite (proj2 D1 O1). pose proof (proj2 O2) as F. rewrite E', <- Ec in F.
    destruct (S F) as (r & g & b & Y1 & P). rewrite Y1. unfold below. split; [lia|tauto].
  - rewrite (proj2 D1 O1), (proj2 D2 O2). destruct (ycc_to_rgb (i_cs src) l cb cr) as [[r g] b], (ycc_to_rgb (i_cs src) l' cb cr) as [[r' g'] b'].
    unfold below. split; [tauto|intros _; exact M].
Qed.
Lemma c54_exactly set set' T T' w h src im im' im'' sb b b' b'' m1 m2 :
  successful_call (converters set) T w h src im sb b m1 -> reordered w h im (dsts m1) im' b' ->
  successful_call (converters set') T' w h src im'' sb b'' m2 ->
  is_rgb (i_pf src) = false -> is_rgb (i_pf im) = true -> is_rgb (i_pf im'') = true ->
  forall x y, 0 <= x < w -> 0 <= y < h ->
  (pixel im' w h b' x y = pixel im'' w h (dsts m2) x y <->
   (overflows set src im w h sb x y <-> overflows set' src im'' w h sb x y)).
Proof.
  intros H1 G H2 Rs R R2 x y Hx Hy. rewrite (reordered_pixels _ _ _ _ _ _ G R x y Hx Hy).
  pose proof (decoded _ _ _ _ _ _ _ _ _ H1 Rs R x y Hx Hy) as D1. pose proof (decoded _ _ _ _ _ _ _ _ _ H2 Rs R2 x y Hx Hy) as D2.
  destruct (over_dec set src im w h sb x y) as [O1|O1], (over_dec set' src im'' w h sb x y) as [O2|O2];
    destruct (pixel src w h sb x y) as [[l cb] cr].
  - destruct (proj1 D1 O1) as (r & g & Y1 & ->), (proj1 D2 O2) as (r' & g' & Y2 & ->). split; [tauto|]. intros _. congruence.
  - destruct (proj1 D1 O1) as (r & g & Y1 & ->). rewrite (proj2 D2 O2), Y1. split; [intros K; discriminate K|tauto].
  - destruct (proj1 D2 O2) as (r & g & Y1 & ->). rewrite (proj2 D1 O1), Y1. split; [intros K; discriminate K|tauto].
  - rewrite (proj2 D1 O1), (proj2 D2 O2). split; [tauto|]. reflexivity.
Qed.
Lemma clamp_range v : 0 <= clamp255 v <= 255.
Proof. unfold clamp255. lia. Qed.
Lemma bright cs l cb cr l' cb' cr' d : 0 <= d -> within (d, d, d) (l, cb, cr) (l', cb', cr') -> 4 * d < 255 -> ~ blue_fits cs (l, cb, cr) ->
  exists r g, ycc_to_rgb cs l' cb' cr' = (r, g, 255).
Proof.
  intros D (A & B & C) D4 F. unfold blue_fits in F. unfold ycc_to_rgb, rgb64 in *.
  assert (H : forall cs, let '((ky, krr, krg, kbg, kbb), _) := rgb_coefs cs in 0 <= ky /\ 0 <= kbb /\ ky + kbb <= 53687) by (intros []; vm_compute; intuition discriminate).
  specialize (H cs). destruct (rgb_coefs cs) as [[[[[ky krr] krg] kbg] kbb] [[o1 o2] o3]]. cbn [snd] in F. destruct H as (K1 & K5 & S3).
  do 2 eexists. f_equal.
  destruct (Z.eq_dec d 0) as [->|D0].
  { replace l' with l by lia. replace cb' with cb by lia. unfold clamp255. lia. }
  assert (A' : - d <= l - l' <= d) by lia. assert (B' : - d <= cb - cb' <= d) by lia.
  pose proof (term_alike _ _ ky d K1 A') as Ty. pose proof (term_alike _ _ kbb d K5 B') as Tbb.
  set (ty := l * ky / 256) in *. set (ty' := l' * ky / 256) in *. set (tbb := cb * kbb / 256) in *. set (tbb' := cb' * kbb / 256) in *.
  clearbody ty ty' tbb tbb'.
  assert (M3 : (ky + kbb) * d <= 53687 * d) by (apply Z.mul_le_mono_nonneg_r; assumption). rewrite Z.mul_add_distr_r in M3.
  unfold clamp255. lia.
Qed.
Lemma c57_exactly set set' T T' w w' h h' src src' dst dst' sb sb' db db' m m' d :
  successful_call (converters set) T w h src dst sb db m ->
  successful_call (converters set') T' w' h' src' dst' sb' db' m' ->
  is_rgb (i_pf src) = false -> is_rgb (i_pf src') = false -> is_rgb (i_pf dst) = true -> is_rgb (i_pf dst') = true ->
  i_cs src = i_cs src' -> 0 <= d ->
  forall x y x' y', 0 <= x < w -> 0 <= y < h -> 0 <= x' < w' -> 0 <= y' < h' ->
  within (d, d, d) (pixel src w h sb x y) (pixel src' w' h' sb' x' y') ->
  (within (3 * d, 3 * d, 4 * d) (pixel dst w h (dsts m) x y) (pixel dst' w' h' (dsts m') x' y') <->
   (overflows set src dst w h sb x y <-> overflows set' src' dst' w' h' sb' x' y') \/ 255 <= 4 * d).
Proof.
  intros H H' Rs Rs' Rd Rd' Ec D x y x' y' Hx Hy Hx' Hy' P.
  pose proof (decoded _ _ _ _ _ _ _ _ _ H Rs Rd x y Hx Hy) as D1. pose proof (decoded _ _ _ _ _ _ _ _ _ H' Rs' Rd' x' y' Hx' Hy') as D2. rewrite <- Ec in D2.
  assert (Br : forall p p', within (d, d, d) p p' -> 4 * d < 255 -> ~ blue_fits (i_cs src) p -> let '(l, cb, cr) := p' in exists r g, ycc_to_rgb (i_cs src) l cb cr = (r, g, 255)).
  { intros [[l cb] cr] [[l' cb'] cr'] W4 D4 F. exact (bright _ _ _ _ _ _ _ _ D W4 D4 F). }
  assert (Sy : within (d, d, d) (pixel src' w' h' sb' x' y') (pixel src w h sb x y)).
  { revert P. destruct (pixel src w h sb x y) as [[l cb] cr], (pixel src' w' h' sb' x' y') as [[l' cb'] cr']. unfold within. lia. }
  assert (F1 : overflows set src dst w h sb x y -> ~ blue_fits (i_cs src) (pixel src w h sb x y)) by (intros [_ F]; exact F).
  assert (F2 : overflows set' src' dst' w' h' sb' x' y' -> ~ blue_fits (i_cs src) (pixel src' w' h' sb' x' y')) by (intros [_ F]; rewrite Ec; exact F).
  pose proof (Br _ _ P) as B1. pose proof (Br _ _ Sy) as B2. clear Br Sy.
  destruct (over_dec set src dst w h sb x y) as [O1|O1], (over_dec set' src' dst' w' h' sb' x' y') as [O2|O2];
    destruct (pixel src w h sb x y) as [[l cb] cr], (pixel src' w' h' sb' x' y') as [[l' cb'] cr'];
    pose proof (rgb_alike (i_cs src) _ _ _ _ _ _ d D P) as W.
  - destruct (proj1 D1 O1) as (r & g & Y1 & ->), (proj1 D2 O2) as (r' & g' & Y2 & ->). rewrite Y1, Y2 in W. unfold within in *. split; [tauto|lia].
  - destruct (proj1 D1 O1) as (r & g & Y1 & ->). rewrite (proj2 D2 O2).
    destruct (Z.lt_ge_cases (4 * d) 255) as [L|L].
    + destruct (B1 L (F1 O1)) as (r' & g' & ->). unfold within. split; [lia|]. intros [Q|Q]; [tauto|lia].
    + rewrite Y1 in W. destruct (ycc_to_rgb (i_cs src) l' cb' cr') as [[r' g'] b'] eqn:Y2. assert (0 <= b' <= 255).
      { unfold ycc_to_rgb in Y2. destruct (rgb64 _ _ _ _) as [[? ?] ?]. injection Y2 as _ _ <-. apply clamp_range. }
      unfold within in *. split; [right; exact L|lia].
  - destruct (proj1 D2 O2) as (r' & g' & Y2 & ->). rewrite (proj2 D1 O1).
    destruct (Z.lt_ge_cases (4 * d) 255) as [L|L].
    + destruct (B2 L (F2 O2)) as (r & g & ->). unfold within. split; [lia|]. intros [Q|Q]; [tauto|lia].
    + rewrite Y2 in W. destruct (ycc_to_rgb (i_cs src) l cb cr) as [[r g] b] eqn:Y1. assert (0 <= b <= 255).
      { unfold ycc_to_rgb in Y1. destruct (rgb64 _ _ _ _) as [[? ?] ?]. injection Y1 as _ _ <-. apply clamp_range. }
      unfold within in *. split; [right; exact L|lia].
  - rewrite (proj2 D1 O1), (proj2 D2 O2). split; [tauto|intros _; exact W].
Qed.

(** ** Distances from the exact components *)
Lemma near_255 (e x : Q) : (e <= 25)%Q -> near e 255 x -> near e 0 x -> False.
Proof. unfold near. intros He H1 H2. apply Qabs_Qle_condition in H1, H2. change (inject_Z 255) with (255 # 1)%Q in H1. change (inject_Z 0) with 0%Q in H2. lra. Qed.
Lemma c16_exactly set T w h src dst sb db m' : successful_call (converters set) T w h src dst sb db m' ->
  is_rgb (i_pf src) = false -> is_rgb (i_pf dst) = true ->
  forall x y, 0 <= x < w -> 0 <= y < h ->
  let '(l, cb, cr) := pixel src w h sb x y in
  (all_near (rgb_error (i_cs src)) (pixel dst w h (dsts m') x y)
    (q_clamp_rgb (exact_rgb (i_cs src) (inject_Z l) (inject_Z cb) (inject_Z cr))) <-> ~ overflows set src dst w h sb x y).
Proof.
  intros HS Rs Rd x y Hx Hy. pose proof (decoded _ _ _ _ _ _ _ _ _ HS Rs Rd x y Hx Hy) as E.
  pose proof (success_bytes _ _ _ _ _ _ _ _ _ x y HS) as B. destruct (ycc_space _ _ _ _ _ _ _ _ _ HS) as [N _]. specialize (N Rs).
  assert (O : overflows set src dst w h sb x y \/ ~ overflows set src dst w h sb x y) by apply over_dec.
  destruct (pixel src w h sb x y) as [[l cb] cr].
  pose proof (rgb_near (i_cs src) l cb cr N ltac:(unfold is_byte; tauto) ltac:(unfold is_byte; tauto) ltac:(unfold is_byte; tauto)) as H.
  destruct (exact_rgb (i_cs src) (inject_Z l) (inject_Z cb) (inject_Z cr)) as [[xr xg] xb]. cbn [q_clamp_rgb] in *.
  destruct O as [O|O].
  - destruct (proj1 E O) as (r & g & Y & ->). rewrite Y in H. unfold all_near. split; [|tauto]. intros (_ & _ & K). exfalso.
    refine (near_255 _ _ _ (proj2 (proj2 H)) K). destruct (i_cs src); vm_compute; discriminate.
  - rewrite (proj2 E O). destruct (ycc_to_rgb (i_cs src) l cb cr) as [[r g] b]. split; [tauto|intros _; exact H].
Qed.
Lemma c39_exactly set T w h src dst sb db m' : successful_call (converters set) T w h src dst sb db m' ->
  is_rgb (i_pf src) = false -> is_rgb (i_pf dst) = true ->
  forall x y, 0 <= x < w -> 0 <= y < h ->
  let '(l, cb, cr) := pixel src w h sb x y in
  (all_near (doc_rgb_error (i_cs src)) (pixel dst w h (dsts m') x y)
    (q_clamp_rgb (doc_rgb (i_cs src) (inject_Z l) (inject_Z cb) (inject_Z cr))) <-> ~ overflows set src dst w h sb x y).
Proof.
  intros HS Rs Rd x y Hx Hy. pose proof (decoded _ _ _ _ _ _ _ _ _ HS Rs Rd x y Hx Hy) as E.
  pose proof (success_bytes _ _ _ _ _ _ _ _ _ x y HS) as B. destruct (ycc_space _ _ _ _ _ _ _ _ _ HS) as [N _]. specialize (N Rs).
  assert (O : overflows set src dst w h sb x y \/ ~ overflows set src dst w h sb x y) by apply over_dec.
  destruct (pixel src w h sb x y) as [[l cb] cr].
  assert (H : let '(r, g, b) := ycc_to_rgb (i_cs src) l cb cr in let '(xr, xg, xb) := doc_rgb (i_cs src) (inject_Z l) (inject_Z cb) (inject_Z cr) in
    near (doc_rgb_error (i_cs src)) r (q_clamp xr) /\ near (doc_rgb_error (i_cs src)) g (q_clamp xg) /\ near (doc_rgb_error (i_cs src)) b (q_clamp xb)).
  { pose proof (rgb_near (i_cs src) l cb cr N ltac:(unfold is_byte; tauto) ltac:(unfold is_byte; tauto) ltac:(unfold is_byte; tauto)) as H.
    pose proof (doc_inverse_close (i_cs src) (inject_Z l) (inject_Z cb) (inject_Z cr) N) as D.
    destruct (ycc_to_rgb (i_cs src) l cb cr) as [[r g] b].
    destruct (exact_rgb _ _ _ _) as [[er eg] eb], (doc_rgb _ _ _ _) as [[dr dg] db'].
    destruct D as (D1 & D2 & D3); try (apply byte_range; lia). destruct H as (H1 & H2 & H3).
    split; [|split]; (eapply near_le; [eapply near_trans; [eassumption|apply clamp_close; eassumption]|]); lra. }
  destruct (doc_rgb (i_cs src) (inject_Z l) (inject_Z cb) (inject_Z cr)) as [[xr xg] xb]. cbn [q_clamp_rgb] in *.
  destruct O as [O|O].
  - destruct (proj1 E O) as (r & g & Y & ->). rewrite Y in H. unfold all_near. split; [|tauto]. intros (_ & _ & K). exfalso.
    refine (near_255 _ _ _ (proj2 (proj2 H)) K). destruct (i_cs src); vm_compute; discriminate.
  - rewrite (proj2 E O). destruct (ycc_to_rgb (i_cs src) l cb cr) as [[r g] b]. split; [tauto|intros _; exact H].
Qed.

(** ** Greys in the full range spaces *)
Lemma full_neutral cs l : limited cs = false -> cs <> CsRgb -> 0 <= l <= 255 -> ycc_to_rgb cs l 128 128 = full_grey cs l.
Proof.
  intros L N H. destruct cs; try discriminate L; try congruence; unfold ycc_to_rgb, rgb64, full_grey, clamp255; cbn [rgb_coefs];
    replace (l * 16384 / 256) with (64 * l) by lia.
  - change (128 * 22970 / 256) with 11485. change (128 * 5638 / 256) with 2819. change (128 * 11700 / 256) with 5850. change (128 * 29032 / 256) with 14516.
    f_equal; [f_equal|]; lia.
  - change (128 * 25802 / 256) with 12901. change (128 * 3069 / 256) with 1534. change (128 * 7670 / 256) with 3835. change (128 * 30402 / 256) with 15201.
    f_equal; [f_equal|]; lia.
Qed.
Lemma full_centre cs l : limited cs = false -> cs <> CsRgb -> 0 <= l <= 255 -> ycc_to_rgb cs l 127 127 = (l, l, l).
Proof.
  intros L N H. destruct cs; try discriminate L; try congruence; unfold ycc_to_rgb, rgb64, clamp255; cbn [rgb_coefs];
    replace (l * 16384 / 256) with (64 * l) by lia.
  - change (127 * 22970 / 256) with 11395. change (127 * 5638 / 256) with 2796. change (127 * 11700 / 256) with 5804. change (127 * 29032 / 256) with 14402.
    f_equal; [f_equal|]; lia.
  - change (127 * 25802 / 256) with 12800. change (127 * 3069 / 256) with 1522. change (127 * 7670 / 256) with 3805. change (127 * 30402 / 256) with 15082.
    f_equal; [f_equal|]; lia.
Qed.
Lemma grey_fits cs l c : 0 <= l <= 255 -> c = 127 \/ c = 128 -> blue_fits cs (l, c, c).
Proof. intros H [-> | ->]; destruct cs; unfold blue_fits, rgb64; cbn [rgb_coefs snd]; lia. Qed.
Lemma c19_full set T w h src dst sb db m' : successful_call (converters set) T w h src dst sb db m' ->
  is_rgb (i_pf src) = false -> is_rgb (i_pf dst) = true -> limited (i_cs src) = false ->
  forall x y, 0 <= x < w -> 0 <= y < h -> forall l,
  (pixel src w h sb x y = (l, 128, 128) -> pixel dst w h (dsts m') x y = full_grey (i_cs src) l) /\
  (pixel src w h sb x y = (l, 127, 127) -> pixel dst w h (dsts m') x y = (l, l, l)).
Proof.
  intros HS Rs Rd Li x y Hx Hy l. pose proof (success_bytes _ _ _ _ _ _ _ _ _ x y HS) as B. destruct (ycc_space _ _ _ _ _ _ _ _ _ HS) as [N _]. specialize (N Rs).
  pose proof (decoded _ _ _ _ _ _ _ _ _ HS Rs Rd x y Hx Hy) as E.
  assert (O : forall c, c = 127 \/ c = 128 -> 0 <= l <= 255 -> pixel src w h sb x y = (l, c, c) -> ~ overflows set src dst w h sb x y).
  { intros c Hc Hl Ep [_ F]. apply F. rewrite Ep. apply grey_fits; assumption. }
  split; intros Ep; assert (Hl : 0 <= l <= 255) by (rewrite Ep in B; lia); first [specialize (O 128 (or_intror eq_refl) Hl Ep)|specialize (O 127 (or_introl eq_refl) Hl Ep)]; rewrite Ep in E, B; rewrite (proj2 E O);
    [apply full_neutral|apply full_centre]; auto; lia.
Qed.
