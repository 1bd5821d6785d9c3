(** Facts behind the theorems on the round trip YCbCr - RGB - YCbCr. *)
From Coq Require Import ZArith QArith Qminmax Qabs List Bool Lia Lqa.
Import ListNotations.
From Verif Require Import Base Fmt Wrappers CpuInfo Lib Sets Exec Spec SimdSpec SetSpec ApiSpec Api PixelFacts PropFacts
  Itu PixelSpec ItuFacts PixelProps PixelApi TripSpec.
Open Scope Z_scope.

(** ** One colour *)

Lemma clamp_id x : 0 <= x < 256 * 64 -> clamp255 (x / 64) = x / 64.
Proof. intros. pose proof (floor_bounds x 64 eq_refl). unfold clamp255. lia. Qed.

(** Bounds of the encoded values before rounding: [lo] and [hi] are the least and greatest
    drift of luma, blue and red difference. *)
Definition drift (cs : color_space) : (Z * Z) * (Z * Z) * (Z * Z) :=
  match cs with
  | Bt601FR => ((0, 0), (1, 1), (1, 1))
  | Bt709FR => ((0, 1), (1, 1), (0, 1))
  | _ => ((0, 0), (0, 0), (0, 0))
  end.
Definition rounds (d v : Z) (e : Z * Z) : Prop := 65536 * (v + fst e) - 32768 < d < 65536 * (v + snd e) + 32768.
Definition returns (cs : color_space) (y cb cr : Z) : Prop :=
  let p := ycc_to_rgb cs y cb cr in let '(dy, db, dr) := drift cs in
  rounds (dot (y_weights cs) p) (y - y_min cs) dy /\ rounds (dot (cb_weights cs) p) (cb - 128) db /\
  rounds (dot (cr_weights cs) p) (cr - 128) dr.

Ltac floors := repeat match goal with |- context [?a * ?k / 256] =>
    let v := fresh "v" in
    pose proof (floor_bounds (a * k) 256 eq_refl); set (v := a * k / 256) in *; clearbody v end;
  repeat match goal with |- context [?a / 64] =>
    let v := fresh "n" in
    pose proof (floor_bounds a 64 eq_refl); set (v := a / 64) in *; clearbody v end.

Lemma returns_limited cs y cb cr : limited cs = true -> 0 <= y <= 255 -> 0 <= cb <= 255 -> 0 <= cr <= 255 ->
  representable cs (y, cb, cr) -> returns cs y cb cr.
Proof.
  intros L Hy Hb Hr. unfold representable, returns, ycc_to_rgb, rgb64, rounds.
  destruct cs; try discriminate L; cbn [rgb_coefs y_weights cb_weights cr_weights drift fst snd y_min limited];
  intros (R1 & R2 & R3); rewrite !clamp_id by assumption; cbn [dot]; clear R1 R2 R3; floors;
  (split; [lia|split; lia]).
Qed.

(** Full range: the differences to luma depend on the two chroma values only; all of them are tried. *)
Definition cell (e : (Z * Z) * (Z * Z) * (Z * Z)) (w2 v2 u2 : Z) (c t : Z * (Z * Z * Z)) : bool :=
  let '((y0, y1), (b0, b1), (r0, r1)) := e in
  let '(c0, (a, b, r)) := c in let '(bt, (a', b', r')) := t in
  let g := Z.shiftr (c0 - bt) 6 in
  let d := a + (w2 * g + a') in let s := b + (v2 * g + b') in let r := r + (u2 * g + r') in
  (65536 * y0 - 32768 <? d) && (d <? 65536 * y1 + 32768) && (65536 * b0 - 32768 <? s) && (s <? 65536 * b1 + 32768) &&
  (65536 * r0 - 32768 <? r) && (r <? 65536 * r1 + 32768).
Definition of_cr (cs : color_space) (cr : Z) : Z * (Z * Z * Z) :=
  let '((ky, krr, krg, kbg, kbb), (or_, og, ob)) := rgb_coefs cs in
  let r := (cr * krr / 256 - or_) / 64 in
  (og - cr * krg / 256,
   (dot (y_weights cs) (r, 0, 0), dot (cb_weights cs) (r, 0, 0), dot (cr_weights cs) (r, 0, 0) - 65536 * (cr - 128))).
Definition of_cb (cs : color_space) (cb : Z) : Z * (Z * Z * Z) :=
  let '((ky, krr, krg, kbg, kbb), (or_, og, ob)) := rgb_coefs cs in
  let b := (cb * kbb / 256 - ob) / 64 in
  (cb * kbg / 256,
   (dot (y_weights cs) (0, 0, b), dot (cb_weights cs) (0, 0, b) - 65536 * (cb - 128), dot (cr_weights cs) (0, 0, b))).
Definition sweep (cs : color_space) : bool :=
  let '((_, w2, _), (_, v2, _), (_, u2, _)) := (y_weights cs, cb_weights cs, cr_weights cs) in
  let tb := map (of_cb cs) (zrange 0 256) in
  forallb (fun c => forallb (cell (drift cs) w2 v2 u2 c) tb) (map (of_cr cs) (zrange 0 256)).

Lemma sweep_601 : sweep Bt601FR = true.
Proof. vm_compute. reflexivity. Qed.
Lemma sweep_709 : sweep Bt709FR = true.
Proof. vm_compute. reflexivity. Qed.

Lemma sweep_cell cs cb cr : sweep cs = true -> 0 <= cb <= 255 -> 0 <= cr <= 255 ->
  cell (drift cs) (snd (fst (y_weights cs))) (snd (fst (cb_weights cs))) (snd (fst (cr_weights cs)))
    (of_cr cs cr) (of_cb cs cb) = true.
Proof.
  intros H Hb Hr. unfold sweep in H.
  destruct (y_weights cs) as [[w1 w2] w3], (cb_weights cs) as [[v1 v2] v3], (cr_weights cs) as [[u1 u2] u3].
  cbn [fst snd]. rewrite forallb_forall in H.
  specialize (H (of_cr cs cr) ltac:(apply in_map, In_zrange; lia)). rewrite forallb_forall in H.
  apply H, in_map, In_zrange. lia.
Qed.

Lemma add_floor y a : (y * 16384 / 256 + a) / 64 = y + a / 64.
Proof.
  replace (y * 16384) with (y * 64 * 256) by ring. rewrite Z.div_mul by lia.
  replace (y * 64 + a) with (a + y * 64) by ring. rewrite Z.div_add by lia. ring.
Qed.

Lemma returns_full cs y cb cr : cs = Bt601FR \/ cs = Bt709FR -> 0 <= y <= 255 -> 0 <= cb <= 255 -> 0 <= cr <= 255 ->
  representable cs (y, cb, cr) -> returns cs y cb cr.
Proof.
  intros C Hy Hb Hr. assert (S : sweep cs = true) by (destruct C as [-> | ->]; [exact sweep_601|exact sweep_709]).
  pose proof (sweep_cell cs cb cr S Hb Hr) as Q. clear S.
  unfold representable, returns, ycc_to_rgb, rgb64, rounds.
  destruct C as [-> | ->]; unfold cell, of_cr, of_cb in Q;
  cbn [rgb_coefs y_weights cb_weights cr_weights drift fst snd y_min limited] in Q |- *;
  intros (R1 & R2 & R3); rewrite !clamp_id by assumption; clear R1 R2 R3; rewrite !add_floor;
  cbn [dot] in Q |- *; rewrite Z.shiftr_div_pow2 in Q by lia; change (2 ^ 6) with 64 in Q;
  rewrite !andb_true_iff, !Z.ltb_lt in Q;
  match type of Q with context [?a - cr * ?k / 256 - cb * ?l / 256] =>
    replace (a - cr * k / 256 - cb * l / 256) with (a - cb * l / 256 - cr * k / 256) in Q by ring end;
  repeat match goal with |- context [?a / 64] => let v := fresh "n" in set (v := a / 64) in *; clearbody v end;
  clear - Q; lia.
Qed.

Lemma returns_all cs y cb cr : cs <> CsRgb -> 0 <= y <= 255 -> 0 <= cb <= 255 -> 0 <= cr <= 255 ->
  representable cs (y, cb, cr) -> returns cs y cb cr.
Proof.
  intros N Hy Hb Hr R. destruct cs; try congruence.
  all: try (apply returns_limited; auto; fail). all: apply returns_full; auto.
Qed.

(** The exact colour decides: what is not near the ends is not clamped. *)
Lemma near_inside e n x : (e <= 24 # 10)%Q -> near e n (q_clamp x) -> (4 <= x <= 251)%Q -> 1 <= n <= 254.
Proof.
  unfold near. intros He H [H1 H2].
  assert (E : (q_clamp x == x)%Q) by (unfold q_clamp; rewrite Q.min_r, Q.max_r; lra).
  rewrite E in H. apply Qabs_Qle_condition in H. destruct H as [H3 H4].
  split.
  - apply Z.lt_pred_le. rewrite Zlt_Qlt. change (inject_Z (Z.pred 1)) with 0%Q. lra.
  - apply Z.lt_succ_r. rewrite Zlt_Qlt. change (inject_Z (Z.succ 254)) with 255%Q. lra.
Qed.

Lemma unclamped x : 1 <= clamp255 (x / 64) <= 254 -> 0 <= x < 256 * 64.
Proof. unfold clamp255. pose proof (floor_bounds x 64 eq_refl). lia. Qed.

Lemma inside_representable cs y cb cr : cs <> CsRgb -> 0 <= y <= 255 -> 0 <= cb <= 255 -> 0 <= cr <= 255 ->
  well_inside cs (y, cb, cr) -> representable cs (y, cb, cr).
Proof.
  intros N Hy Hb Hr. unfold well_inside, representable.
  pose proof (rgb_near cs y cb cr N Hy Hb Hr) as R. unfold ycc_to_rgb in R.
  destruct (rgb64 cs y cb cr) as [[r g] b]. destruct (exact_rgb _ _ _ _) as [[er eg] eb].
  assert (He : (rgb_error cs <= 24 # 10)%Q) by (destruct cs; cbn; unfold Qle; cbn; lia).
  destruct R as (R1 & R2 & R3). intros (E1 & E2 & E3).
  split; [|split]; eapply unclamped, near_inside; eauto.
Qed.

(** ** Images *)

Lemma round_up_rounds d v e : rounds d v e -> v + fst e <= round_up d 65536 <= v + snd e.
Proof.
  unfold rounds, round_up. change (2 * 65536) with 131072.
  pose proof (floor_bounds (2 * d + 65536) 131072 eq_refl). lia.
Qed.

Lemma chroma_rounds up k n p v e : n = 1 \/ n = 4 ->
  n * (65536 * (v - 128 + fst e) - 32768) < dot k p < n * (65536 * (v - 128 + snd e) + 32768) ->
  v + fst e <= chroma up k n p <= v + snd e.
Proof.
  intros Hn H. unfold chroma, round_down, round_up. set (d := dot k p) in *. clearbody d.
  destruct Hn; subst n; destruct up;
  repeat match goal with |- context [?a / ?b] => let b' := eval vm_compute in b in
    change (a / b) with (a / b'); pose proof (floor_bounds a b' eq_refl); 
    let q := fresh "q" in set (q := a / b') in *; clearbody q end; lia.
Qed.

Lemma dot_add k p q : dot k (add_rgb p q) = dot k p + dot k q.
Proof. destruct k as [[a b] c], p as [[x y] z], q as [[x' y'] z']. cbn [dot add_rgb]. ring. Qed.

Lemma representable_saturates set cs p : representable cs p -> saturates set cs p.
Proof.
  destruct p as [[y cb] cr]. unfold representable, saturates, blue_fits. right. right.
  destruct (rgb64 cs y cb cr) as [[r g] b]. cbn [snd]. lia.
Qed.

Lemma same_half a b : a / 2 = b / 2 -> 0 <= b -> 0 <= a.
Proof. intros E H. pose proof (Z.div_pos b 2 H ltac:(lia)). pose proof (floor_bounds a 2 eq_refl). lia. Qed.
Lemma same_half_lt a b n : n mod 2 = 0 -> a / 2 = b / 2 -> b < n -> a < n.
Proof.
  intros M E H. pose proof (Z.div_mod n 2 ltac:(lia)). pose proof (floor_bounds a 2 eq_refl). pose proof (floor_bounds b 2 eq_refl). lia.
Qed.

Lemma c48 set set' T T' w h src mid dst sb mb db m1 m2 :
  successful_call (converters set) T w h src mid sb mb m1 ->
  successful_call (converters set') T' w h mid dst (dsts m1) db m2 ->
  is_rgb (i_pf src) = false -> is_rgb (i_pf mid) = true -> is_rgb (i_pf dst) = false -> i_cs dst = i_cs src ->
  forall x y, 0 <= x < w -> 0 <= y < h ->
  (forall x' y', shares_chroma (i_pf dst) x y x' y' ->
     representable (i_cs src) (pixel src w h sb x' y') /\
     (i_pf src = I444 -> snd (fst (pixel src w h sb x' y')) = snd (fst (pixel src w h sb x y)) /\
                         snd (pixel src w h sb x' y') = snd (pixel src w h sb x y))) ->
  regenerated (i_cs src) (pixel src w h sb x y) (pixel dst w h (dsts m2) x y).
Proof.
  intros H1 H2 Rs Rm Rd Ec x y Hx Hy HA.
  rewrite (result_ycc _ _ _ _ _ _ _ _ _ H2 Rm Rd x y Hx Hy). cbv zeta. rewrite Ec.
  destruct (ycc_space _ _ _ _ _ _ _ _ _ H1) as [N _]. specialize (N Rs).
  destruct (success_valid _ _ _ _ _ _ _ _ _ H1) as ((_ & _ & _) & _ & Sup).
  destruct (success_valid _ _ _ _ _ _ _ _ _ H2) as (_ & (_ & _ & Zd) & Sup').
  assert (B := fun x y => success_bytes _ _ _ _ _ _ _ _ _ x y H1).
  destruct (pixel src w h sb x y) as [[l cb] cr] eqn:EP. cbn [fst snd] in HA.
  (* every pixel of the area has the same chroma, and is decoded without clamping *)
  assert (K : forall x' y', shares_chroma (i_pf dst) x y x' y' ->
            exists l', 0 <= l' <= 255 /\ pixel src w h sb x' y' = (l', cb, cr) /\
              pixel mid w h (dsts m1) x' y' = ycc_to_rgb (i_cs src) l' cb cr /\ returns (i_cs src) l' cb cr).
  { intros x' y' S. destruct (HA x' y' S) as [R C]. specialize (B x' y').
    destruct (pixel src w h sb x' y') as [[l' cb'] cr'] eqn:E'. cbn [fst snd] in C.
    assert (EC : cb' = cb /\ cr' = cr).
    { destruct (i_pf src) eqn:Es; try discriminate Rs; try (apply C; reflexivity).
      all: try (destruct (i_pf mid); discriminate).
      all: unfold pixel in EP, E'; rewrite Es in EP, E'; cbn [is_rgb] in EP, E'; unfold ycc_pixel in EP, E';
        assert (S2 : x' / 2 = x / 2 /\ y' / 2 = y / 2)
          by (destruct (i_pf dst); cbn [shares_chroma] in S; try exact S; destruct S; subst; auto);
        destruct S2 as [S2 S3]; rewrite S2, S3 in E'; rewrite !pair_equal_spec in EP, E'; destruct EP as [[_ <-] <-], E' as [[_ <-] <-]; auto. }
    destruct EC as [-> ->]. exists l'. split; [tauto|]. split; [reflexivity|].
    assert (RX : 0 <= x' < w /\ 0 <= y' < h).
    { clear - S Rd Sup' Zd Hx Hy. destruct (i_pf dst); try discriminate Rd.
      2: destruct (i_pf mid); discriminate.
      all: cbn [shares_chroma] in S; destruct S as [S1 S2]. 1: subst; auto.
      all: cbn [valid_size] in Zd; destruct Zd as [Zw Zh];
        pose proof (same_half _ _ S1 (proj1 Hx)); pose proof (same_half _ _ S2 (proj1 Hy));
        pose proof (same_half_lt _ _ _ Zw S1 (proj2 Hx)); pose proof (same_half_lt _ _ _ Zh S2 (proj2 Hy)); lia. }
    split.
    - rewrite (c15_exact _ _ _ _ _ _ _ _ _ H1 Rs Rm x' y' (proj1 RX) (proj2 RX)); rewrite E'; [reflexivity|].
      apply representable_saturates, R.
    - apply returns_all; tauto. }
  (* luma *)
  assert (KX : exists l', 0 <= l' <= 255 /\ pixel src w h sb x y = (l', cb, cr) /\
            pixel mid w h (dsts m1) x y = ycc_to_rgb (i_cs src) l' cb cr /\ returns (i_cs src) l' cb cr).
  { apply K. destruct (i_pf dst); cbn [shares_chroma]; auto. }
  destruct KX as (l0 & _ & E0 & M0 & R0). rewrite EP, !pair_equal_spec in E0. destruct E0 as [[<- _] _].
  assert (KA : let '(n, p) := chroma_area (i_pf dst) (pixel mid w h (dsts m1)) x y in
            (n = 1 \/ n = 4) /\ let '(_, db, dr) := drift (i_cs src) in
            n * (65536 * (cb - 128 + fst db) - 32768) < dot (cb_weights (i_cs src)) p < n * (65536 * (cb - 128 + snd db) + 32768) /\
            n * (65536 * (cr - 128 + fst dr) - 32768) < dot (cr_weights (i_cs src)) p < n * (65536 * (cr - 128 + snd dr) + 32768)).
  { assert (DI : i_pf dst = I444 \/ i_pf dst <> I444) by (destruct (i_pf dst); auto; right; discriminate).
    destruct DI as [EI|NI].
    - rewrite EI. cbn [chroma_area]. rewrite M0. split; [auto|]. unfold returns, rounds in R0.
      destruct (drift (i_cs src)) as [[dy e] e']. destruct R0 as (_ & R2 & R3). split; lia.
    - assert (EA : chroma_area (i_pf dst) (pixel mid w h (dsts m1)) x y = (4, block_sum (pixel mid w h (dsts m1)) (x / 2) (y / 2)))
        by (destruct (i_pf dst); try reflexivity; congruence).
      rewrite EA. split; [auto|]. unfold block_sum. rewrite !dot_add.
      assert (D0 : forall n, 2 * n / 2 = n) by (intros; rewrite Z.mul_comm, Z.div_mul; lia).
      assert (D1 : forall n, (2 * n + 1) / 2 = n) by (intros; symmetry; apply Z.div_unique with (r := 1); lia).
      assert (KK : forall x' y', x' / 2 = x / 2 -> y' / 2 = y / 2 ->
                let '(_, db, dr) := drift (i_cs src) in let p := pixel mid w h (dsts m1) x' y' in
                rounds (dot (cb_weights (i_cs src)) p) (cb - 128) db /\ rounds (dot (cr_weights (i_cs src)) p) (cr - 128) dr).
      { intros x' y' S1 S2. destruct (K x' y') as (l' & _ & _ & -> & R); [destruct (i_pf dst); try congruence; cbn [shares_chroma]; auto|].
        unfold returns in R. cbv zeta in R |- *. destruct (drift (i_cs src)) as [[dy e] e']. destruct R as (_ & R). exact R. }
      pose proof (KK (2 * (x / 2)) (2 * (y / 2)) (D0 _) (D0 _)) as K1.
      pose proof (KK (2 * (x / 2) + 1) (2 * (y / 2)) (D1 _) (D0 _)) as K2.
      pose proof (KK (2 * (x / 2)) (2 * (y / 2) + 1) (D0 _) (D1 _)) as K3.
      pose proof (KK (2 * (x / 2) + 1) (2 * (y / 2) + 1) (D1 _) (D1 _)) as K4.
      clear - K1 K2 K3 K4. unfold rounds in *. destruct (drift (i_cs src)) as [[dy e] e']. cbv zeta in *.
      repeat match goal with |- context [dot ?k ?p] => let d := fresh "d" in set (d := dot k p) in *; clearbody d end. lia. }
  destruct (chroma_area _ _ _ _) as [n p]. destruct KA as [Hn KA]. rewrite M0. unfold luma.
  set (up := up_at set' w x). clearbody up.
  unfold returns in R0. unfold regenerated.
  destruct (drift (i_cs src)) as [[dy e] e'] eqn:ED. destruct R0 as (R1 & _ & _). destruct KA as [K1 K2].
  apply round_up_rounds in R1. apply (chroma_rounds up _ _ _ _ _ Hn) in K1. apply (chroma_rounds up _ _ _ _ _ Hn) in K2.
  clear - N ED R1 K1 K2.
  destruct (i_cs src); try congruence; cbn [drift] in ED; rewrite !pair_equal_spec in ED; destruct ED as [[<- <-] <-];
    cbn [fst snd] in *; lia.
Qed.

Lemma c48_inside set set' T T' w h src mid dst sb mb db m1 m2 :
  successful_call (converters set) T w h src mid sb mb m1 ->
  successful_call (converters set') T' w h mid dst (dsts m1) db m2 ->
  is_rgb (i_pf src) = false -> is_rgb (i_pf mid) = true -> is_rgb (i_pf dst) = false -> i_cs dst = i_cs src ->
  forall x y, 0 <= x < w -> 0 <= y < h ->
  (forall x' y', shares_chroma (i_pf dst) x y x' y' ->
     well_inside (i_cs src) (pixel src w h sb x' y') /\
     (i_pf src = I444 -> snd (fst (pixel src w h sb x' y')) = snd (fst (pixel src w h sb x y)) /\
                         snd (pixel src w h sb x' y') = snd (pixel src w h sb x y))) ->
  regenerated (i_cs src) (pixel src w h sb x y) (pixel dst w h (dsts m2) x y).
Proof.
  intros H1 H2 Rs Rm Rd Ec x y Hx Hy HA. eapply c48; eauto. intros x' y' S. destruct (HA x' y' S) as [W C]. split; [|exact C].
  destruct (ycc_space _ _ _ _ _ _ _ _ _ H1) as [N _]. specialize (N Rs).
  pose proof (success_bytes _ _ _ _ _ _ _ _ _ x' y' H1) as B.
  destruct (pixel src w h sb x' y') as [[l cb] cr]. apply inside_representable; tauto.
Qed.

(** ** Generations *)

Lemma generations_kind w h im b n im' b' : generations w h im b n im' b' -> i_pf im' = i_pf im /\ i_cs im' = i_cs im.
Proof. induction 1; [auto|]. destruct IHgenerations. split; congruence. Qed.

(** One more generation, when the pixels of the last one are known. *)
Lemma generation_step set T set' T' w h im1 mid im2 b1 mb b2 m1 m2 (f : Z -> Z -> Z * Z * Z) :
  successful_call (converters set) T w h im1 mid b1 mb m1 ->
  successful_call (converters set') T' w h mid im2 (dsts m1) b2 m2 ->
  is_rgb (i_pf im1) = false -> is_rgb (i_pf mid) = true -> i_pf im2 = i_pf im1 -> i_cs im2 = i_cs im1 ->
  (forall x y, 0 <= x < w -> 0 <= y < h -> pixel im1 w h b1 x y = f x y /\ representable (i_cs im1) (f x y)) ->
  forall x y, 0 <= x < w -> 0 <= y < h -> regenerated (i_cs im1) (f x y) (pixel im2 w h (dsts m2) x y).
Proof.
  intros H1 H2 R1 Rm Ep Ec HF x y Hx Hy. rewrite <- (proj1 (HF x y Hx Hy)).
  eapply c48; eauto; [congruence|]. intros x' y' S.
  destruct (success_valid _ _ _ _ _ _ _ _ _ H2) as (_ & (_ & _ & Zd) & Sup). rewrite Ep in S, Zd, Sup.
  assert (RX : 0 <= x' < w /\ 0 <= y' < h).
  { clear - S R1 Sup Zd Hx Hy. destruct (i_pf im1); try discriminate R1.
    2: destruct (i_pf mid); discriminate.
    all: cbn [shares_chroma] in S; destruct S as [S1 S2]. 1: subst; auto.
    all: cbn [valid_size] in Zd; destruct Zd as [Zw Zh];
      pose proof (same_half _ _ S1 (proj1 Hx)); pose proof (same_half _ _ S2 (proj1 Hy));
      pose proof (same_half_lt _ _ _ Zw S1 (proj2 Hx)); pose proof (same_half_lt _ _ _ Zh S2 (proj2 Hy)); lia. }
  split.
  - destruct (HF x' y' (proj1 RX) (proj2 RX)) as [-> R]. exact R.
  - intros E. rewrite E in S. cbn [shares_chroma] in S. destruct S; subst. auto.
Qed.

Lemma c48_lossless w h im b n im' b' : generations w h im b n im' b' ->
  is_rgb (i_pf im) = false -> limited (i_cs im) = true ->
  (forall x y, 0 <= x < w -> 0 <= y < h -> representable (i_cs im) (pixel im w h b x y)) ->
  forall x y, 0 <= x < w -> 0 <= y < h -> pixel im' w h b' x y = pixel im w h b x y.
Proof.
  intros G Rs L HR. induction G as [|n im1 b1 set T mid mb m1 set' T' im2 b2 m2 G IH H1 H2 Rm Ep Ec]; [auto|].
  destruct (generations_kind _ _ _ _ _ _ _ G) as [Kp Kc]. intros x y Hx Hy.
  assert (Q : regenerated (i_cs im1) (pixel im w h b x y) (pixel im2 w h (dsts m2) x y)).
  { eapply (generation_step set T set' T' w h im1 mid im2 b1 mb b2 m1 m2 (pixel im w h b)); eauto; try congruence.
    intros x' y' Hx' Hy'. rewrite Kc. auto. }
  rewrite Kc in Q. unfold regenerated in Q.
  destruct (pixel im w h b x y) as [[l cb] cr], (pixel im2 w h (dsts m2) x y) as [[l' cb'] cr'].
  destruct (i_cs im); try discriminate L; destruct Q as (-> & -> & ->); reflexivity.
Qed.

Definition shifted (k : Z) (p : Z * Z * Z) : Z * Z * Z := let '(y, cb, cr) := p in (y, cb + k, cr + k).

Lemma c48_shifted w h im b n im' b' : generations w h im b n im' b' ->
  is_rgb (i_pf im) = false -> i_cs im = Bt601FR ->
  (forall x y k, 0 <= x < w -> 0 <= y < h -> 0 <= k < Z.of_nat n ->
     let '(l, cb, cr) := pixel im w h b x y in representable Bt601FR (l, cb + k, cr + k)) ->
  forall x y, 0 <= x < w -> 0 <= y < h ->
  let '(l, cb, cr) := pixel im w h b x y in
  pixel im' w h b' x y = (l, cb + Z.of_nat n, cr + Z.of_nat n).
Proof.
  intros G Rs L HR. induction G as [|n im1 b1 set T mid mb m1 set' T' im2 b2 m2 G IH H1 H2 Rm Ep Ec]; intros x y Hx Hy.
  - destruct (pixel im w h b x y) as [[l cb] cr]. rewrite !Z.add_0_r. reflexivity.
  - destruct (generations_kind _ _ _ _ _ _ _ G) as [Kp Kc].
    assert (Q : regenerated (i_cs im1) (shifted (Z.of_nat n) (pixel im w h b x y)) (pixel im2 w h (dsts m2) x y)).
    { eapply (generation_step set T set' T' w h im1 mid im2 b1 mb b2 m1 m2 (fun x y => shifted (Z.of_nat n) (pixel im w h b x y)));
        eauto; try congruence.
      intros x' y' Hx' Hy'. rewrite Kc, L.
      assert (IH' := IH ltac:(intros x0 y0 k Hx0 Hy0 Hk; apply HR; lia) x' y' Hx' Hy').
      specialize (HR x' y' (Z.of_nat n) Hx' Hy' ltac:(lia)).
      destruct (pixel im w h b x' y') as [[l cb] cr]. split; [exact IH'|exact HR]. }
    rewrite Kc, L in Q. destruct (pixel im w h b x y) as [[l cb] cr]. cbn [shifted regenerated] in Q.
    destruct (pixel im2 w h (dsts m2) x y) as [[l' cb'] cr']. rewrite Nat2Z.inj_succ.
    destruct Q as (-> & -> & ->). rewrite !pair_equal_spec. lia.
Qed.
