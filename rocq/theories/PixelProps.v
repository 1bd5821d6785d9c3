(** Properties of the pixel formulas of [Spec]: ranges, neutral colours, round trip,
    monotonicity, subsampling. *)
From Coq Require Import ZArith Lia ZifyBool.
From Verif Require Import Fmt Spec PixelFacts Itu PixelSpec ItuFacts.
Open Scope Z_scope.
Ltac Zify.zify_post_hook ::= Z.div_mod_to_equations.

Lemma luma_nominal cs r g b : cs <> CsRgb -> is_byte r -> is_byte g -> is_byte b ->
  y_min cs <= luma cs (r, g, b) <= y_max cs.
Proof.
  unfold is_byte, luma, round_up, dot, y_max. intros N. destruct cs; try congruence; cbn [y_weights y_min limited]; lia.
Qed.

Lemma cb_nominal up cs n r g b : cs <> CsRgb -> n = 1 \/ n = 4 ->
  0 <= r <= n * 255 -> 0 <= g <= n * 255 -> 0 <= b <= n * 255 ->
  c_min cs <= chroma up (cb_weights cs) n (r, g, b) <= c_max cs.
Proof.
  intros N Hn. pose proof (chroma_bounds up (cb_weights cs) n (r, g, b) Hn) as B.
  set (c := chroma up (cb_weights cs) n (r, g, b)) in *. clearbody c.
  unfold c_min, c_max. destruct cs; try congruence; cbn [cb_weights limited dot] in *; destruct Hn; subst; lia.
Qed.

Lemma cr_nominal up cs n r g b : cs <> CsRgb -> n = 1 \/ n = 4 ->
  0 <= r <= n * 255 -> 0 <= g <= n * 255 -> 0 <= b <= n * 255 ->
  c_min cs <= chroma up (cr_weights cs) n (r, g, b) <= c_max cs.
Proof.
  intros N Hn. pose proof (chroma_bounds up (cr_weights cs) n (r, g, b) Hn) as B.
  set (c := chroma up (cr_weights cs) n (r, g, b)) in *. clearbody c.
  unfold c_min, c_max. destruct cs; try congruence; cbn [cr_weights limited dot] in *; destruct Hn; subst; lia.
Qed.

(** The ends of the ranges are reached. *)
Example nominal_reached :
  luma Bt601 (0, 0, 0) = 16 /\ luma Bt601 (255, 255, 255) = 235 /\
  blue_diff Bt709 1 (255, 255, 0) = 16 /\ blue_diff Bt709 1 (0, 0, 255) = 240 /\
  blue_diff Bt709FR 4 (1020, 1020, 0) = 1 /\ red_diff Bt601FR 1 (255, 0, 0) = 255.
Proof. repeat split; reflexivity. Qed.

(** ** Greys *)
Lemma grey_chroma up cs n v : n = 1 \/ n = 4 ->
  chroma up (cb_weights cs) n (v, v, v) = 128 /\ chroma up (cr_weights cs) n (v, v, v) = 128.
Proof.
  intros Hn. pose proof (chroma_bounds up (cb_weights cs) n (v, v, v) Hn) as B1.
  pose proof (chroma_bounds up (cr_weights cs) n (v, v, v) Hn) as B2. cbv zeta in *.
  assert (E1 : dot (cb_weights cs) (v, v, v) = 0) by (destruct cs; cbn [cb_weights dot]; lia).
  assert (E2 : dot (cr_weights cs) (v, v, v) = 0) by (destruct cs; cbn [cr_weights dot]; lia).
  rewrite E1 in B1. rewrite E2 in B2. destruct Hn; subst; lia.
Qed.

Lemma grey_luma cs v : cs <> CsRgb -> is_byte v -> 
  luma cs (v, v, v) = y_min cs + (if limited cs then round_up (56284 * v) 65536 else v).
Proof.
  unfold is_byte, luma, round_up, dot. intros N. destruct cs; try congruence; cbn [y_weights y_min limited]; lia.
Qed.

(** Neutral chroma gives greys in the limited range spaces. *)
Lemma neutral_grey cs y : limited cs = true -> is_byte y ->
  let '(r, g, b) := ycc_to_rgb cs y 128 128 in r = g /\ g = b.
Proof.
  unfold is_byte. destruct cs; try discriminate; intros _; unfold ycc_to_rgb, rgb64, clamp255; cbn [rgb_coefs]; lia.
Qed.

(** In the full range spaces, it does not: the components differ by up to 3. *)
Lemma neutral_not_grey : ycc_to_rgb Bt601FR 128 128 128 = (129, 127, 130).
Proof. reflexivity. Qed.

Lemma clamp_diff a b e : 0 <= e -> Z.abs (a - b) <= e -> Z.abs (clamp255 a - clamp255 b) <= e.
Proof. unfold clamp255. lia. Qed.

Lemma neutral_close cs y : cs <> CsRgb -> is_byte y ->
  let '(r, g, b) := ycc_to_rgb cs y 128 128 in Z.abs (r - g) <= 3 /\ Z.abs (g - b) <= 3 /\ Z.abs (r - b) <= 1.
Proof.
  intros N _. unfold ycc_to_rgb, rgb64.
  destruct cs; try congruence; cbn [rgb_coefs];
  repeat match goal with |- context [128 * ?k / 256] =>
    let c := eval vm_compute in (128 * k / 256) in change (128 * k / 256) with c end;
  match goal with |- context [y * ?k / 256] => set (v := y * k / 256); clearbody v end;
  repeat match goal with |- context [?a / 64] =>
    let n := fresh "n" in
    pose proof (floor_bounds a 64 eq_refl); set (n := a / 64) in *; clearbody n end;
  (split; [|split]); apply clamp_diff; lia.
Qed.

(** ** Round trip *)
Definition trip (up up' : bool) (cs : color_space) (p : rgb) : rgb :=
  ycc_to_rgb cs (luma cs p) (chroma up (cb_weights cs) 1 p) (chroma up' (cr_weights cs) 1 p).

Lemma clamp_close a n e : is_byte a -> Z.abs (n - a) <= e -> Z.abs (clamp255 n - a) <= e.
Proof. unfold is_byte, clamp255. lia. Qed.

Lemma trip_close up up' cs r g b : cs <> CsRgb -> is_byte r -> is_byte g -> is_byte b ->
  let '(r', g', b') := trip up up' cs (r, g, b) in let '(er, eg, eb) := trip_error cs in
  Z.abs (r' - r) <= er /\ Z.abs (g' - g) <= eg /\ Z.abs (b' - b) <= eb.
Proof.
  intros N Hr Hg Hb. unfold trip.
  pose proof (luma_bounds cs r g b) as B1. set (y := luma cs (r, g, b)) in *. clearbody y.
  pose proof (chroma_bounds up (cb_weights cs) 1 (r, g, b) ltac:(auto)) as B2.
  set (cb := chroma up (cb_weights cs) 1 (r, g, b)) in *. clearbody cb.
  pose proof (chroma_bounds up' (cr_weights cs) 1 (r, g, b) ltac:(auto)) as B3.
  set (cr := chroma up' (cr_weights cs) 1 (r, g, b)) in *. clearbody cr.
  unfold ycc_to_rgb, rgb64, trip_error.
  destruct cs; try congruence; cbn [rgb_coefs y_weights cb_weights cr_weights y_min dot] in *;
  repeat match goal with |- context [?a * ?k / 256] =>
    let v := fresh "v" in
    pose proof (floor_bounds (a * k) 256 eq_refl); set (v := a * k / 256) in *; clearbody v end;
  repeat match goal with |- context [?a / 64] =>
    let v := fresh "n" in
    pose proof (floor_bounds a 64 eq_refl); set (v := a / 64) in *; clearbody v end;
  unfold is_byte in *; (split; [|split]); apply clamp_close; unfold is_byte; lia.
Qed.


(** Limited range: black and white come back exactly. *)
Lemma trip_black_white up up' cs : limited cs = true ->
  luma cs (0, 0, 0) = 16 /\ luma cs (255, 255, 255) = 235 /\
  trip up up' cs (0, 0, 0) = (0, 0, 0) /\ trip up up' cs (255, 255, 255) = (255, 255, 255).
Proof. destruct up, up', cs; try discriminate; intros _; repeat split; reflexivity. Qed.

Lemma trip_black_white_full up up' :
  trip up up' Bt601FR (0, 0, 0) = (1, 0, 2) /\ trip up up' Bt601FR (255, 255, 255) = (255, 254, 255) /\
  trip up up' Bt709FR (0, 0, 0) = (2, 0, 2) /\ trip up up' Bt709FR (255, 255, 255) = (255, 254, 255).
Proof. destruct up, up'; repeat split; vm_compute; reflexivity. Qed.

(** ** Monotonicity *)
Lemma luma_mono cs r g b r' g' b' : r <= r' -> g <= g' -> b <= b' ->
  luma cs (r, g, b) <= luma cs (r', g', b').
Proof. unfold luma, round_up, dot. destruct cs; cbn [y_weights y_min]; lia. Qed.

Lemma clamp_mono a b : a <= b -> clamp255 a <= clamp255 b.
Proof. unfold clamp255. lia. Qed.

Lemma rgb_mono cs y y' cb cr : y <= y' ->
  let '(r, g, b) := ycc_to_rgb cs y cb cr in let '(r', g', b') := ycc_to_rgb cs y' cb cr in
  r <= r' /\ g <= g' /\ b <= b'.
Proof.
  intros L. unfold ycc_to_rgb, rgb64.
  assert (D : forall k, 0 <= k -> y * k / 256 <= y' * k / 256)
    by (intros; apply Z.div_le_mono; [reflexivity|apply Z.mul_le_mono_nonneg_r; assumption]).
  destruct cs; cbn [rgb_coefs];
  match goal with |- context [y * ?k / 256] =>
    specialize (D k ltac:(discriminate)); set (v := y * k / 256) in *; set (v' := y' * k / 256) in *; clearbody v v' end;
  (split; [|split]); apply clamp_mono, Z.div_le_mono; lia.
Qed.

(** ** Subsampling *)
Lemma round_up_scale a n d : 0 < n -> 0 < d -> round_up (n * a) (n * d) = round_up a d.
Proof.
  intros. unfold round_up.
  replace (2 * (n * a) + n * d) with (n * (2 * a + d)) by lia.
  replace (2 * (n * d)) with (n * (2 * d)) by lia. rewrite Z.div_mul_cancel_l by lia. reflexivity.
Qed.

Lemma round_down_scale a n d : 0 < n -> 0 < d -> round_down (n * a) (n * d) = round_down a d.
Proof.
  intros. unfold round_down. rewrite <- (round_up_scale (- a) n d) by lia. do 2 f_equal. lia.
Qed.

Lemma uniform_block up k p : let '(r, g, b) := p in
  chroma up k 4 (4 * r, 4 * g, 4 * b) = chroma up k 1 p.
Proof.
  destruct p as [[r g] b], k as [[x y] z]. unfold chroma, dot.
  replace (x * (4 * r) + y * (4 * g) + z * (4 * b)) with (4 * (x * r + y * g + z * b)) by ring.
  destruct up; [rewrite (round_up_scale _ 4 65536) by lia|rewrite (round_down_scale _ 4 65536) by lia]; reflexivity.
Qed.

(** Subsampled chroma is between the least and the greatest chroma of the block. *)
Lemma block_between up (k : Z * Z * Z) (p1 p2 p3 p4 : rgb) (lo hi : Z) :
  let c := chroma up k 1 in
  lo <= c p1 <= hi -> lo <= c p2 <= hi -> lo <= c p3 <= hi -> lo <= c p4 <= hi ->
  lo <= chroma up k 4 (add_rgb (add_rgb p1 p2) (add_rgb p3 p4)) <= hi.
Proof.
  destruct k as [[x y] z], p1 as [[r1 g1] b1], p2 as [[r2 g2] b2], p3 as [[r3 g3] b3], p4 as [[r4 g4] b4].
  unfold add_rgb, chroma, dot. cbv zeta.
  set (d1 := x * r1 + y * g1 + z * b1). set (d2 := x * r2 + y * g2 + z * b2).
  set (d3 := x * r3 + y * g3 + z * b3). set (d4 := x * r4 + y * g4 + z * b4).
  replace (x * _ + y * _ + z * _) with (d1 + d2 + (d3 + d4)) by (unfold d1, d2, d3, d4; ring).
  clearbody d1 d2 d3 d4. unfold round_down, round_up. destruct up; lia.
Qed.

(** The bounds of [trip_close] are reached. *)
Example trip_reached :
  trip false false Bt601 (0, 0, 7) = (0, 1, 7) /\ trip false false Bt601 (0, 1, 20) = (0, 1, 18) /\
  trip false false Bt601FR (0, 0, 215) = (3, 0, 216) /\ trip false false Bt601FR (0, 2, 19) = (2, 0, 21) /\ trip false false Bt709FR (0, 1, 0) = (3, 0, 3).
Proof. repeat split; vm_compute; reflexivity. Qed.
