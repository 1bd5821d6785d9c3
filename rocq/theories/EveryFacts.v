(** Every colour byte of the source is read, and matters: lemmas. *)
From Coq Require Import ZArith List Bool Lia ZifyBool ZifyNat.
Import ListNotations.
From Verif Require Import Base Fmt Wrappers CpuInfo Lib Spec SimdSpec SetSpec ApiSpec Sets Api RefSpec RefFacts ResultFacts PropFacts
  DataSpec DataFacts Trace TraceSpec CourseSpec TraceRunFacts EverySpec.
Open Scope Z_scope.
Ltac Zify.zify_post_hook ::= Z.div_mod_to_equations.

(** Mid grey everywhere, but 255 at one position. *)
Definition grey (bufs : list (list Z)) : list (list Z) := new_buffers (fun _ _ _ => 128) 0 bufs.
Definition stained (n : nat) (a : Z) (bufs : list (list Z)) : list (list Z) :=
  new_buffers (fun k x _ => if Nat.eqb k n && (x =? a) then 255 else 128) 0 bufs.

Lemma new_sizes f : forall bufs n, same_sizes bufs (new_buffers f n bufs).
Proof.
  unfold same_sizes. induction bufs as [|b bufs IH]; intros n; [reflexivity|].
  cbn [new_buffers map]. rewrite new_bytes_length, <- IH. reflexivity.
Qed.
Lemma new_bytes_ok f : (forall x v, 0 <= f x v <= 255) -> forall b a, Forall (fun z => 0 <= z <= 255) (new_bytes f a b).
Proof. intros F. induction b as [|v b IH]; intros a; cbn [new_bytes]; constructor; auto. Qed.
Lemma new_ok f : (forall k x v, 0 <= f k x v <= 255) -> forall bufs n, of_bytes (new_buffers f n bufs).
Proof.
  intros F. unfold of_bytes. induction bufs as [|b bufs IH]; intros n; cbn [new_buffers]; constructor; auto.
  apply new_bytes_ok. intros; apply F.
Qed.
Lemma new_at f bufs n a : 0 <= a < buf_len bufs n ->
  nth (Z.to_nat a) (nth n (new_buffers f 0 bufs) []) 0 = f n a (nth (Z.to_nat a) (nth n bufs []) 0).
Proof.
  intros H. unfold buf_len in H. destruct (Nat.lt_ge_cases n (length bufs)) as [L|L].
  2:{ rewrite nth_overflow in H by exact L. cbn [length] in H. lia. }
  rewrite new_buffers_nth by exact L. cbn [Nat.add]. rewrite new_bytes_nth by lia. f_equal. lia.
Qed.
Lemma new_out f bufs n a : buf_len bufs n <= a ->
  nth (Z.to_nat a) (nth n (new_buffers f 0 bufs) []) 0 = 0.
Proof.
  intros H. apply nth_overflow. unfold buf_len in H.
  destruct (Nat.lt_ge_cases n (length bufs)) as [L|L].
  - rewrite new_buffers_nth by exact L. rewrite new_bytes_length. lia.
  - rewrite (nth_overflow (new_buffers _ _ _)) by (rewrite new_buffers_length; exact L). cbn [length]. lia.
Qed.
Lemma grey_sizes bufs : same_sizes bufs (grey bufs). Proof. apply new_sizes. Qed.
Lemma grey_ok bufs : of_bytes (grey bufs). Proof. apply new_ok. intros; lia. Qed.
Lemma stained_sizes n a bufs : same_sizes bufs (stained n a bufs). Proof. apply new_sizes. Qed.
Lemma stained_ok n a bufs : of_bytes (stained n a bufs).
Proof. apply new_ok. intros k x v. destruct (_ && _); lia. Qed.
Lemma one_stain n a bufs : 0 <= a < buf_len bufs n -> differ_at n a (grey bufs) (stained n a bufs).
Proof.
  intros R. split; [|split].
  - transitivity (map (@length Z) bufs); [symmetry; apply grey_sizes|apply stained_sizes].
  - unfold grey, stained. rewrite !new_at by exact R. rewrite Nat.eqb_refl, Z.eqb_refl. cbn [andb]. discriminate.
  - intros k b B D. unfold grey, stained. destruct (Z_lt_ge_dec b (buf_len bufs k)) as [L|L].
    + rewrite !new_at by lia. destruct (Nat.eqb_spec k n) as [->|]; [|reflexivity].
      destruct (Z.eqb_spec b a) as [->|]; [contradiction (D eq_refl)|reflexivity].
    + rewrite !new_out by lia. reflexivity.
Qed.

(** *** The pixel a colour byte belongs to *)
Definition spot := (geom * Z * Z)%type.
Definition spot_in (gs : list geom) (s : spot) : Prop :=
  let '(g, y, j) := s in In g gs /\ 0 <= y < g_rows g /\ 0 <= j < g_row g.
Definition at_spot (bufs : list (list Z)) (s : spot) : Z := let '(g, y, j) := s in sample bufs g y j.
Definition spot_is (n : nat) (a : Z) (s : spot) : Prop :=
  let '(g, y, j) := s in n = g_buf g /\ a = g_base g + y * g_stride g + j.
Definition triple (src : image) (w h : Z) (bufs : list (list Z)) (x y : Z) : Z * Z * Z :=
  let gs := image_planes src w h in
  if is_rgb (i_pf src) then rgb_pixel (i_pf src) gs bufs x y else ycc_pixel (i_pf src) gs bufs x y.

Lemma find_pixel src w h n a : valid_image src w h -> i_pf src <> I422 -> colour_byte src w h n a ->
  exists x y s1 s2 s3, 0 <= x < w /\ 0 <= y < h /\
    (forall bufs, triple src w h bufs x y = (at_spot bufs s1, at_spot bufs s2, at_spot bufs s3)) /\
    Forall (spot_in (image_planes src w h)) [s1; s2; s3] /\ Exists (spot_is n a) [s1; s2; s3].
Proof.
  intros (_ & Pl & Sz) N2 (g & y & j & I & En & Y & J & Ea & Al).
  destruct src as [pf cs np st]. unfold triple, image_planes in *. cbn [i_pf i_planes i_strides] in *.
  assert (Packed : forall d, (d = 3 \/ d = 4) -> planes pf np st w h = [Geom 0 0 (eff_stride st 0 (d * w)) h (d * w)] ->
    is_rgb pf = true -> bytes_per_pixel pf = d ->
    (let '(o1, o2, o3) := component_offsets pf in
     0 <= o1 < d /\ 0 <= o2 < d /\ 0 <= o3 < d /\ (j mod d = o1 \/ j mod d = o2 \/ j mod d = o3)) ->
    exists x y0 s1 s2 s3, 0 <= x < w /\ 0 <= y0 < h /\
    (forall bufs, (if is_rgb pf then rgb_pixel pf (planes pf np st w h) bufs x y0 else ycc_pixel pf (planes pf np st w h) bufs x y0)
        = (at_spot bufs s1, at_spot bufs s2, at_spot bufs s3)) /\
    Forall (spot_in (planes pf np st w h)) [s1; s2; s3] /\ Exists (spot_is n a) [s1; s2; s3]).
  { intros d D E R B O. rewrite E in *. rewrite R. destruct I as [<-|[]]. cbn [g_rows g_row g_buf g_base g_stride] in *.
    unfold rgb_pixel. rewrite B. destruct (component_offsets pf) as [[o1 o2] o3]. destruct O as (O1 & O2 & O3 & O).
    set (G := Geom 0 0 (eff_stride st 0 (d * w)) h (d * w)).
    assert (K : j = d * (j / d) + j mod d) by (apply Z.div_mod; lia).
    assert (Q : 0 <= j / d < w) by (destruct D as [-> | ->]; lia).
    exists (j / d), y, (G, y, d * (j / d) + o1), (G, y, d * (j / d) + o2), (G, y, d * (j / d) + o3).
    split; [exact Q|]. split; [lia|]. split; [intros; reflexivity|].
    split.
    - assert (QQ : d * (j / d) + d <= d * w) by (destruct D as [-> | ->]; lia).
      assert (Q0 : 0 <= d * (j / d)) by (destruct D as [-> | ->]; lia).
      repeat (apply Forall_cons; [split; [left; reflexivity|]; cbn [g_rows g_row G]; lia|]). constructor.
    - destruct O as [O|[O|O]]; [apply Exists_cons_hd|apply Exists_cons_tl, Exists_cons_hd|apply Exists_cons_tl, Exists_cons_tl, Exists_cons_hd];
        (split; [exact En|]); cbn [g_base g_stride G]; rewrite Ea, K at 1; rewrite O; reflexivity. }
  assert (Hy : 2 * y / 2 = y) by lia. assert (Hj : 2 * j / 2 = j) by lia. assert (Hn : 2 * (2 * (j / 2) / 2) = 2 * (j / 2)) by lia.
  assert (Hl : forall s1 s2 s3, spot_is n a s1 \/ spot_is n a s2 \/ spot_is n a s3 -> Exists (spot_is n a) [s1; s2; s3]).
  { intros s1 s2 s3 [K|[K|K]]; [apply Exists_cons_hd|apply Exists_cons_tl, Exists_cons_hd|apply Exists_cons_tl, Exists_cons_tl, Exists_cons_hd]; exact K. }
  assert (Hf : forall gs s1 s2 s3, spot_in gs s1 -> spot_in gs s2 -> spot_in gs s3 -> Forall (spot_in gs) [s1; s2; s3]) by (intros; auto).
  destruct pf; try (contradiction (N2 eq_refl)).
  - apply (Packed 4); auto. cbn [component_offsets is_alpha] in *. lia.
  - apply (Packed 4); auto. cbn [component_offsets is_alpha] in *. lia.
  - apply (Packed 3); auto. cbn [component_offsets is_alpha] in *. lia.
  - apply (Packed 4); auto. cbn [component_offsets is_alpha] in *. lia.
  - apply (Packed 3); auto. cbn [component_offsets is_alpha] in *. lia.
  - (* I444 *) cbn [is_rgb planes ycc_pixel nth_plane nth valid_size] in *.
    exists j, y, (Geom 0 0 (eff_stride st 0 w) h w, y, j), (Geom 1 0 (eff_stride st 1 w) h w, y, j), (Geom 2 0 (eff_stride st 2 w) h w, y, j).
    destruct I as [<-|[<-|[<-|[]]]]; cbn [g_rows g_row g_buf g_base g_stride] in *; (split; [lia|]); (split; [lia|]); (split; [intros; reflexivity|]);
      (split; [apply Hf; (split; [cbn [In]; auto|cbn [g_rows g_row]; lia])|apply Hl; cbn [spot_is g_buf g_base g_stride]; auto]).
  - (* I420 *) cbn [is_rgb planes ycc_pixel nth_plane nth valid_size] in *.
    set (G0 := Geom 0 0 (eff_stride st 0 w) h w) in *. set (G1 := Geom 1 0 (eff_stride st 1 (w / 2)) (h / 2) (w / 2)) in *.
    set (G2 := Geom 2 0 (eff_stride st 2 (w / 2)) (h / 2) (w / 2)) in *.
    assert (P : forall x' y', 0 <= x' < w -> 0 <= y' < h -> spot_is n a (G0, y', x') \/ spot_is n a (G1, y' / 2, x' / 2) \/ spot_is n a (G2, y' / 2, x' / 2) ->
      exists x y0 s1 s2 s3, 0 <= x < w /\ 0 <= y0 < h /\
      (forall bufs, (sample bufs G0 y0 x, sample bufs G1 (y0 / 2) (x / 2), sample bufs G2 (y0 / 2) (x / 2))
        = (at_spot bufs s1, at_spot bufs s2, at_spot bufs s3)) /\
      Forall (spot_in [G0; G1; G2]) [s1; s2; s3] /\ Exists (spot_is n a) [s1; s2; s3]).
    { intros x' y' X' Y' S'. exists x', y', (G0, y', x'), (G1, y' / 2, x' / 2), (G2, y' / 2, x' / 2).
      split; [lia|]. split; [lia|]. split; [intros; reflexivity|]. split; [|apply Hl; exact S'].
      apply Hf; (split; [cbn [In]; auto|cbn [g_rows g_row G0 G1 G2]; lia]). }
    destruct I as [<-|[<-|[<-|[]]]]; cbn [g_rows g_row g_buf g_base g_stride G0 G1 G2] in *.
    + apply (P j y); [lia|lia|left; split; assumption].
    + apply (P (2 * j) (2 * y)); [lia|lia|right; left]. rewrite Hy, Hj. split; assumption.
    + apply (P (2 * j) (2 * y)); [lia|lia|right; right]. rewrite Hy, Hj. split; assumption.
  - (* NV12 *) cbn [is_rgb ycc_pixel valid_size] in *.
    assert (Q : exists G0 G1, planes Nv12 np st w h = [G0; G1] /\ g_rows G0 = h /\ g_row G0 = w /\ g_rows G1 = h / 2 /\ g_row G1 = w).
    { cbn [planes]. destruct (np =? 1); eexists; eexists; (split; [reflexivity|]); auto. }
    destruct Q as (G0 & G1 & E & R0 & W0 & R1 & W1). rewrite E in *. clear Packed. unfold nth_plane. cbn [nth].
    assert (P : forall x' y', 0 <= x' < w -> 0 <= y' < h ->
      spot_is n a (G0, y', x') \/ spot_is n a (G1, y' / 2, 2 * (x' / 2)) \/ spot_is n a (G1, y' / 2, 2 * (x' / 2) + 1) ->
      exists x y0 s1 s2 s3, 0 <= x < w /\ 0 <= y0 < h /\
      (forall bufs, (sample bufs G0 y0 x, sample bufs G1 (y0 / 2) (2 * (x / 2)), sample bufs G1 (y0 / 2) (2 * (x / 2) + 1))
        = (at_spot bufs s1, at_spot bufs s2, at_spot bufs s3)) /\
      Forall (spot_in [G0; G1]) [s1; s2; s3] /\ Exists (spot_is n a) [s1; s2; s3]).
    { intros x' y' X' Y' S'. exists x', y', (G0, y', x'), (G1, y' / 2, 2 * (x' / 2)), (G1, y' / 2, 2 * (x' / 2) + 1).
      split; [lia|]. split; [lia|]. split; [intros; reflexivity|]. split; [|apply Hl; exact S'].
      apply Hf; (split; [cbn [In]; auto|lia]). }
    destruct I as [<-|[<-|[]]].
    + apply (P j y); [lia|lia|left; split; assumption].
    + apply (P (2 * (j / 2)) (2 * y)); [lia|lia|right]. rewrite Hy, Hn.
      assert (K : j = 2 * (j / 2) \/ j = 2 * (j / 2) + 1) by lia.
      destruct K as [K|K]; [left|right]; (split; [assumption|]); rewrite <- K; assumption.
Qed.

(** *** What a stain changes *)
Lemma spot_range src w h bufs s : laid_out src w h bufs -> spot_in (image_planes src w h) s ->
  let '(g, y, j) := s in 0 <= g_base g -> 0 <= g_base g + y * g_stride g + j < buf_len bufs (g_buf g).
Proof.
  intros [Is Rs] S. destruct s as [[g y] j]. destruct S as (I & Y & J). intros B.
  pose proof (proj1 (Forall_forall _ _) Is g I) as P. pose proof (proj1 (Forall_forall _ _) Rs g I) as R.
  unfold plane_in in P. cbv beta in R. nia.
Qed.
Lemma base_nonneg src w h g : rows_apart src w h -> 0 < w -> 0 < h -> In g (image_planes src w h) -> 0 <= g_base g.
Proof.
  intros Rs W H I. destruct src as [pf cs np st]. unfold rows_apart, image_planes in *. cbn [i_pf i_planes i_strides] in *.
  destruct pf; cbn [planes] in *; try (destruct (np =? 1)); repeat (destruct I as [<-|I]; [cbn [g_base]; try lia|]); try contradiction.
  apply Forall_inv in Rs. cbn [g_row g_stride] in Rs. nia.
Qed.
Lemma spot_grey src w h bufs s : laid_out src w h bufs -> 0 < w -> 0 < h -> spot_in (image_planes src w h) s ->
  at_spot (grey bufs) s = 128.
Proof.
  intros L W H S. pose proof (spot_range _ _ _ _ _ L S) as R. destruct s as [[g y] j].
  specialize (R (base_nonneg _ _ _ _ (proj2 L) W H (proj1 S))). unfold at_spot, sample, grey. apply new_at, R.
Qed.
Lemma spot_stained src w h bufs n a s : laid_out src w h bufs -> 0 < w -> 0 < h -> spot_in (image_planes src w h) s ->
  (at_spot (stained n a bufs) s = 128 \/ at_spot (stained n a bufs) s = 255) /\
  (spot_is n a s -> at_spot (stained n a bufs) s = 255).
Proof.
  intros L W H S. pose proof (spot_range _ _ _ _ _ L S) as R. destruct s as [[g y] j].
  specialize (R (base_nonneg _ _ _ _ (proj2 L) W H (proj1 S))). unfold at_spot, sample, stained. rewrite new_at by exact R.
  split; [destruct (_ && _); auto|]. intros [-> ->]. rewrite Nat.eqb_refl, Z.eqb_refl. reflexivity.
Qed.

Lemma luma_stain cs p q r : cs <> CsRgb -> (p = 128 \/ p = 255) -> (q = 128 \/ q = 255) -> (r = 128 \/ r = 255) ->
  (p = 255 \/ q = 255 \/ r = 255) -> luma cs (p, q, r) <> luma cs (128, 128, 128).
Proof.
  intros N [-> | ->] [-> | ->] [-> | ->] O; try (exfalso; lia); destruct cs; try (contradiction (N eq_refl)); vm_compute; discriminate.
Qed.
Lemma rgb_stain X cs p q r : X = spec_arith \/ X = x86_arith \/ X = neon_arith -> cs <> CsRgb ->
  (p = 128 \/ p = 255) -> (q = 128 \/ q = 255) -> (r = 128 \/ r = 255) ->
  (p = 255 \/ q = 255 \/ r = 255) -> ar_rgb X cs p q r <> ar_rgb X cs 128 128 128.
Proof.
  intros [-> |[-> | ->]] N [-> | ->] [-> | ->] [-> | ->] O; try (exfalso; lia); destruct cs; try (contradiction (N eq_refl)); vm_compute; discriminate.
Qed.
Lemma cols_arith set spf dpf w x : let X := set_cols set spf dpf w x in X = spec_arith \/ X = x86_arith \/ X = neon_arith.
Proof. cbv zeta. unfold set_cols, left_cols, vector_arith. destruct set; [left; reflexivity|..]; destruct (x <? _); auto. Qed.

Lemma pixel_byte_stain pf p q : p <> q ->
  exists k, 0 <= k < 3 + (if bytes_per_pixel pf =? 4 then 1 else 0) /\ pixel_byte pf p k <> pixel_byte pf q k.
Proof.
  destruct p as [[p1 p2] p3], q as [[q1 q2] q3]. intros N.
  assert (D : p1 <> q1 \/ p2 <> q2 \/ p3 <> q3).
  { destruct (Z.eq_dec p1 q1) as [->|]; [|auto]. destruct (Z.eq_dec p2 q2) as [->|]; [|auto].
    destruct (Z.eq_dec p3 q3) as [->|]; [|auto]. contradiction (N eq_refl). }
  destruct pf; cbn [pixel_byte component_offsets bytes_per_pixel]; destruct D as [D|[D|D]];
    first [exists 0; split; [split; [vm_compute; discriminate|vm_compute; reflexivity]|exact D] | exists 1; split; [split; [vm_compute; discriminate|vm_compute; reflexivity]|exact D] | exists 2; split; [split; [vm_compute; discriminate|vm_compute; reflexivity]|exact D] | exists 3; split; [split; [vm_compute; discriminate|vm_compute; reflexivity]|exact D]].
Qed.

Lemma noticed set w h src dst sb n a : valid_image src w h -> valid_image dst w h -> supported (i_pf src) (i_pf dst) = true ->
  0 < w -> 0 < h -> laid_out src w h sb -> colour_byte src w h n a ->
  exists p g y j, nth_error (image_planes dst w h) p = Some g /\ 0 <= y < g_rows g /\ 0 <= j < g_row g /\
    expected (set_cols set (i_pf src) (i_pf dst) w) src dst w h (grey sb) p y j <>
    expected (set_cols set (i_pf src) (i_pf dst) w) src dst w h (stained n a sb) p y j.
Proof.
  intros Vs Vd Su W H L C.
  assert (N2 : i_pf src <> I422) by (intros E; rewrite E in Su; destruct (i_pf dst); discriminate Su).
  destruct (find_pixel src w h n a Vs N2 C) as (x & y & s1 & s2 & s3 & X & Y & E & F & O).
  assert (G : triple src w h (grey sb) x y = (128, 128, 128)).
  { rewrite E. inversion F as [|? ? F1 F']; subst. inversion F' as [|? ? F2 F'']; subst. inversion F'' as [|? ? F3 _]; subst.
    rewrite !(spot_grey src w h) by assumption. reflexivity. }
  assert (K : exists p q r, triple src w h (stained n a sb) x y = (p, q, r) /\ (p = 128 \/ p = 255) /\ (q = 128 \/ q = 255) /\ (r = 128 \/ r = 255) /\
    (p = 255 \/ q = 255 \/ r = 255)).
  { inversion F as [|? ? F1 F']; subst. inversion F' as [|? ? F2 F'']; subst. inversion F'' as [|? ? F3 _]; subst.
    destruct (spot_stained src w h sb n a s1 L W H F1) as [A1 B1], (spot_stained src w h sb n a s2 L W H F2) as [A2 B2],
      (spot_stained src w h sb n a s3 L W H F3) as [A3 B3].
    eexists; eexists; eexists. split; [apply E|]. split; [exact A1|]. split; [exact A2|]. split; [exact A3|].
    inversion O as [? ? O1|? ? O']; subst; [auto|]. inversion O' as [? ? O1|? ? O'']; subst; [auto|].
    inversion O'' as [? ? O1|? ? O3]; subst; [auto|]. inversion O3. }
  destruct K as (p & q & r & S & P1 & Q1 & R1 & O1). clear E F O C.
  set (A := set_cols set (i_pf src) (i_pf dst) w).
  destruct Vs as (Cs & _), Vd as (Cd & _). unfold valid_colors in *.
  destruct (is_rgb (i_pf dst)) eqn:Rd.
  - (* packed destination *)
    assert (D : source_rgb A src w h (grey sb) x y <> source_rgb A src w h (stained n a sb) x y).
    { unfold source_rgb, triple in *. destruct (is_rgb (i_pf src)) eqn:Rs.
      - rewrite G, S. intros Z1. injection Z1 as Z1 Z2 Z3. lia.
      - rewrite G, S. apply not_eq_sym, rgb_stain; auto; [apply cols_arith|]. intros Z1. apply Cs in Z1. discriminate Z1. }
    destruct (pixel_byte_stain (i_pf dst) _ _ D) as (k & K & N).
    set (d := bytes_per_pixel (i_pf dst)) in *.
    assert (Hd : (d = 3 \/ d = 4) /\ k < d) by (unfold d in *; destruct (i_pf dst); try discriminate Rd; cbn [bytes_per_pixel] in *; destruct (_ =? 4) eqn:Q4 in K; lia).
    destruct Hd as [Hd Hk].
    exists 0%nat, (Geom 0 0 (eff_stride (i_strides dst) 0 (d * w)) h (d * w)), y, (d * x + k).
    assert (Q : (d * x + k) / d = x /\ (d * x + k) mod d = k) by (destruct Hd as [-> | ->]; lia).
    split; [unfold image_planes, d; destruct (i_pf dst); try discriminate Rd; reflexivity|].
    cbn [g_rows g_row]. split; [lia|]. split; [destruct Hd as [-> | ->]; lia|].
    unfold expected. fold d. rewrite (proj1 Q), (proj2 Q). destruct (i_pf dst); try discriminate Rd; exact N.
  - (* luma *)
    assert (Rs : is_rgb (i_pf src) = true) by (destruct (i_pf src), (i_pf dst); try discriminate Su; try discriminate Rd; reflexivity).
    assert (Q : exists g, nth_error (image_planes dst w h) 0 = Some g /\ g_rows g = h /\ g_row g = w).
    { unfold image_planes. destruct (i_pf dst); try discriminate Rd; cbn [planes]; try (destruct (_ =? 1)); eexists; repeat split. }
    destruct Q as (g & Eg & E1 & E2). exists 0%nat, g, y, x. split; [exact Eg|]. rewrite E1, E2. split; [lia|]. split; [lia|].
    assert (D : ar_luma (A x) (i_cs dst) (source_rgb A src w h (grey sb) x y) <> ar_luma (A x) (i_cs dst) (source_rgb A src w h (stained n a sb) x y)).
    { unfold A at 1 3. rewrite cols_luma. unfold source_rgb, triple in *. rewrite Rs in *. rewrite G, S.
      apply not_eq_sym, luma_stain; auto. intros Z1. apply Cd in Z1. discriminate Z1. }
    unfold expected. destruct (i_pf dst); try discriminate Rd; exact D.
Qed.

Lemma colour_range src w h sb n a : laid_out src w h sb -> 0 < w -> 0 < h -> colour_byte src w h n a -> 0 <= a < buf_len sb n.
Proof.
  intros L W H (g & y & j & I & -> & Y & J & -> & _).
  pose proof (spot_range src w h sb (g, y, j) L (conj I (conj Y J))) as R. cbn in R. apply R.
  exact (base_nonneg _ _ _ _ (proj2 L) W H I).
Qed.

Lemma call_notices set T w h src dst sb db m n a : successful_call (converters set) T w h src dst sb db m -> colour_byte src w h n a ->
  exists m1 m2, successful_call (converters set) T w h src dst (grey sb) db m1 /\
    successful_call (converters set) T w h src dst (stained n a sb) db m2 /\
    exists k b, nth (Z.to_nat b) (nth k (dsts m1) []) 0 <> nth (Z.to_nat b) (nth k (dsts m2) []) 0 /\ 0 <= b.
Proof.
  intros S C. destruct (success_valid _ _ _ _ _ _ _ _ _ S) as (Vs & Vd & Su).
  assert (Bd : of_bytes db) by (destruct S as (_ & (_ & _ & _ & _ & _ & _ & _ & B2) & _); eapply buffers_ok_bytes, B2).
  destruct (every_frame _ _ _ _ _ _ _ _ _ (grey sb) db S (grey_sizes sb) eq_refl (grey_ok sb) Bd) as [m1 S1].
  destruct (every_frame _ _ _ _ _ _ _ _ _ (stained n a sb) db S (stained_sizes n a sb) eq_refl (stained_ok n a sb) Bd) as [m2 S2].
  exists m1, m2. split; [exact S1|]. split; [exact S2|].
  destruct (success_conv _ _ _ _ _ _ _ _ _ S1) as (_ & _ & V1 & _), (success_conv _ _ _ _ _ _ _ _ _ S2) as (_ & _ & V2 & _).
  destruct S as (_ & _ & W & H & L & L2 & _).
  destruct (noticed set w h src dst sb n a Vs Vd Su W H L C) as (p & g & y & j & E & Y & J & N).
  exists (g_buf g), (g_base g + y * g_stride g + j). split.
  - intros Q. apply N. rewrite <- (V1 p g E y j Y J), <- (V2 p g E y j Y J). exact Q.
  - assert (I : In g (image_planes dst w h)) by (eapply nth_error_In; exact E).
    pose proof (base_nonneg _ _ _ _ (proj2 L2) W H I) as B. pose proof (proj1 (Forall_forall _ _) (proj2 L2) g I) as R. cbv beta in R. nia.
Qed.

Lemma call_matters set T w h src dst sb db m n a : successful_call (converters set) T w h src dst sb db m -> colour_byte src w h n a ->
  exists sb1 sb2 m1 m2, differ_at n a sb1 sb2 /\
    successful_call (converters set) T w h src dst sb1 db m1 /\ successful_call (converters set) T w h src dst sb2 db m2 /\ dsts m1 <> dsts m2.
Proof.
  intros S C. destruct (call_notices _ _ _ _ _ _ _ _ _ _ _ S C) as (m1 & m2 & S1 & S2 & k & b & N & _).
  exists (grey sb), (stained n a sb), m1, m2. split.
  - apply one_stain. destruct S as (_ & _ & W & H & L & _). exact (colour_range _ _ _ _ _ _ L W H C).
  - split; [exact S1|]. split; [exact S2|]. intros E. apply N. rewrite E. reflexivity.
Qed.

Lemma position_in l n a : In (Reads (Src n) a) l <-> In (false, Src n, a) (map position l).
Proof.
  split.
  - intros I. exact (in_map position l _ I).
  - intros I. apply in_map_iff in I. destruct I as ([p b|p b v] & E & I); [|discriminate E]. injection E as -> ->. exact I.
Qed.
Lemma position_dec (x y : bool * plane * Z) : {x = y} + {x <> y}.
Proof. repeat decide equality. Qed.

Lemma call_reads_all set T w h src dst sb db m n a : successful_call (converters set) T w h src dst sb db m -> colour_byte src w h n a ->
  In (Reads (Src n) a) (accesses (converters set) T w h src dst sb db).
Proof.
  intros S C. destruct (call_notices _ _ _ _ _ _ _ _ _ _ _ S C) as (m1 & m2 & S1 & S2 & k & b & N & B0).
  assert (Bs : of_bytes sb) by (destruct S as (_ & (_ & _ & _ & _ & _ & _ & B1 & _) & _); eapply buffers_ok_bytes, B1).
  assert (R : 0 <= a < buf_len sb n) by (destruct S as (_ & _ & W & H & L & _); exact (colour_range _ _ _ _ _ _ L W H C)).
  apply position_in. rewrite (convert_positions set T w h src dst sb (grey sb) db db (grey_sizes sb) eq_refl Bs (grey_ok sb)).
  destruct (in_dec position_dec (false, Src n, a) (map position (accesses (converters set) T w h src dst (grey sb) db))) as [I|I]; [exact I|].
  exfalso. rewrite <- position_in in I.
  destruct (one_stain n a sb R) as (Z1 & _ & O).
  destruct (rust_replay set T w h src dst (grey sb) (stained n a sb) db db Z1 eq_refl) as [_ E].
  { intros k' b' I' P'. symmetry. apply O; [exact P'|]. intros [= -> ->]. exact (I I'). }
  destruct S1 as (_ & _ & _ & _ & _ & _ & F1), S2 as (_ & _ & _ & _ & _ & _ & F2). rewrite F1, F2 in E.
  destruct E as (_ & _ & E). apply N. exact (E (Dst k) b B0 eq_refl).
Qed.

(** *** Through the C interface *)
Lemma c_call_data set T w h src dst sb sb' db : c_call set T w h src dst sb db ->
  same_sizes sb sb' -> of_bytes sb' -> c_call set T w h src dst sb' db.
Proof.
  intros (HT & (Hw & Hh & P1 & P2 & S1 & S2 & B1 & B2) & W & H & V1 & V2 & Su & E1 & E2 & L1 & L2 & R & I1 & I2) Z' F'.
  unfold c_call. split; [exact HT|]. split; [|do 5 (split; [assumption|]); split; [|split; [assumption|]; split; [|split; [assumption|]; split; [|auto]]]].
  - unfold well_formed. do 6 (split; [assumption|]). split; [exact (buffers_ok_sizes _ _ _ Z' F' B1)|exact B2].
  - unfold enough_planes in *. rewrite <- (map_length (@length Z) sb'), <- Z', map_length. exact E1.
  - exact (laid_out_sizes _ _ _ _ _ Z' L1).
  - unfold room in *. unfold image_in in *. eapply Forall_impl; [|exact R]. intros g. unfold plane_in.
    replace (buf_len sb' (g_buf g)) with (buf_len sb (g_buf g)); [auto|]. unfold buf_len. f_equal.
    change (length (@nil Z)) with (@length Z []) in *.
    rewrite <- !(map_nth (@length Z)), Z'. reflexivity.
Qed.
Lemma c_call_notices set T w h src dst sb db e n a : c_call set T w h src dst sb db -> colour_byte src w h n a ->
  exists d1 d2, c_convert (converters set) T w h src dst (grey sb) db e = Ok (C_Ok, e) (Mem (grey sb) d1) /\
    c_convert (converters set) T w h src dst (stained n a sb) db e = Ok (C_Ok, e) (Mem (stained n a sb) d2) /\
    exists k b, nth (Z.to_nat b) (nth k d1 []) 0 <> nth (Z.to_nat b) (nth k d2 []) 0 /\ 0 <= b.
Proof.
  intros S C.
  destruct (c_call_runs set T w h src dst _ db e (c_call_data _ _ _ _ _ _ _ _ _ S (grey_sizes sb) (grey_ok sb))) as (d1 & E1 & _ & V1 & _).
  destruct (c_call_runs set T w h src dst _ db e (c_call_data _ _ _ _ _ _ _ _ _ S (stained_sizes n a sb) (stained_ok n a sb))) as (d2 & E2 & _ & V2 & _).
  exists d1, d2. split; [exact E1|]. split; [exact E2|].
  destruct S as (_ & _ & W & H & Vs & Vd & Su & _ & _ & L & L2 & _).
  destruct (noticed set w h src dst sb n a Vs Vd Su W H L C) as (p & g & y & j & E & Y & J & N).
  exists (g_buf g), (g_base g + y * g_stride g + j). split.
  - intros Q. apply N. rewrite <- (V1 p g E y j Y J), <- (V2 p g E y j Y J). exact Q.
  - assert (I : In g (image_planes dst w h)) by (eapply nth_error_In; exact E).
    pose proof (base_nonneg _ _ _ _ (proj2 L2) W H I) as B. pose proof (proj1 (Forall_forall _ _) (proj2 L2) g I) as R. cbv beta in R. nia.
Qed.
Lemma c_call_reads_all set T w h src dst sb db e n a : c_call set T w h src dst sb db -> colour_byte src w h n a ->
  In (Reads (Src n) a) (c_accesses (converters set) T w h src dst sb db e).
Proof.
  intros S C. destruct (c_call_notices _ _ _ _ _ _ _ _ e _ _ S C) as (d1 & d2 & F1 & F2 & k & b & N & B0).
  assert (Bs : of_bytes sb) by (destruct S as (_ & (_ & _ & _ & _ & _ & _ & B1 & _) & _); eapply buffers_ok_bytes, B1).
  assert (R : 0 <= a < buf_len sb n) by (destruct S as (_ & _ & W & H & _ & _ & _ & _ & _ & L & _); exact (colour_range _ _ _ _ _ _ L W H C)).
  apply position_in. rewrite (c_convert_positions set T w h src dst sb (grey sb) db db e (grey_sizes sb) eq_refl Bs (grey_ok sb)).
  destruct (in_dec position_dec (false, Src n, a) (map position (c_accesses (converters set) T w h src dst (grey sb) db e))) as [I|I]; [exact I|].
  exfalso. rewrite <- position_in in I.
  destruct (one_stain n a sb R) as (Z1 & _ & O).
  destruct (c_replay set T w h src dst (grey sb) (stained n a sb) db db e Z1 eq_refl) as [_ E].
  { intros k' b' I' P'. symmetry. apply O; [exact P'|]. intros [= -> ->]. exact (I I'). }
  rewrite F1, F2 in E. destruct E as (_ & _ & E). apply N. exact (E (Dst k) b B0 eq_refl).
Qed.

(** *** Nothing else matters *)
Lemma triple_colour src w h s s' x y : valid_image src w h -> i_pf src <> I422 -> 0 <= x < w -> 0 <= y < h ->
  (forall n a, colour_byte src w h n a -> nth (Z.to_nat a) (nth n s []) 0 = nth (Z.to_nat a) (nth n s' []) 0) ->
  triple src w h s x y = triple src w h s' x y.
Proof.
  intros (_ & _ & Sz) N2 X Y Q.
  assert (P : forall i g y j, nth_error (image_planes src w h) i = Some g -> 0 <= y < g_rows g -> 0 <= j < g_row g ->
    is_alpha (i_pf src) (j mod 4) = false -> sample s g y j = sample s' g y j).
  { intros i g y' j E Y' J Al. apply Q. exists g, y', j. apply nth_error_In in E. auto 10. }
  destruct src as [pf cs np st]. unfold triple, image_planes in *. cbn [i_pf i_planes i_strides] in *. clear Q.
  destruct pf; try (contradiction (N2 eq_refl)); cbn [is_rgb rgb_pixel component_offsets bytes_per_pixel planes ycc_pixel nth_plane nth valid_size is_alpha] in *.
  1-5: repeat rewrite (P 0%nat _ _ _ eq_refl) by (cbn [g_rows g_row]; lia); reflexivity.
  - rewrite (P 0%nat _ _ _ eq_refl), (P 1%nat _ _ _ eq_refl), (P 2%nat _ _ _ eq_refl) by (cbn [g_rows g_row]; try reflexivity; lia). reflexivity.
  - rewrite (P 0%nat _ _ _ eq_refl), (P 1%nat _ _ _ eq_refl), (P 2%nat _ _ _ eq_refl) by (cbn [g_rows g_row]; try reflexivity; lia). reflexivity.
  - assert (Q : exists G0 G1, (if np =? 1 then [Geom 0 0 (eff_stride st 0 w) h w; Geom 0 (eff_stride st 0 w * h) (eff_stride st 0 w) (h / 2) w]
       else [Geom 0 0 (eff_stride st 0 w) h w; Geom 1 0 (eff_stride st 1 w) (h / 2) w]) = [G0; G1] /\
       g_rows G0 = h /\ g_row G0 = w /\ g_rows G1 = h / 2 /\ g_row G1 = w).
    { destruct (np =? 1); eexists; eexists; (split; [reflexivity|]); auto. }
    destruct Q as (G0 & G1 & E & R0 & W0 & R1 & W1). rewrite E in *. unfold nth_plane. cbn [nth].
    rewrite (P 0%nat G0 _ _ eq_refl), !(P 1%nat G1 _ _ eq_refl) by (try reflexivity; lia). reflexivity.
Qed.
Lemma others_expected A src dst w h s s' n a p g y j : valid_image src w h -> valid_image dst w h -> i_pf src <> I422 ->
  ~ colour_byte src w h n a -> differ_at n a s s' ->
  nth_error (image_planes dst w h) p = Some g -> 0 <= y < g_rows g -> 0 <= j < g_row g -> 0 < w -> 0 < h -> rows_apart src w h ->
  expected A src dst w h s p y j = expected A src dst w h s' p y j.
Proof.
  intros Vs Vd N2 C (_ & _ & O) E Y J W H R.
  apply (expected_local A src src dst dst w h s s' p g y j); auto; [apply Vd|].
  intros x y' X Y' _. apply source_rgb_pixel; auto. apply (triple_colour src w h); auto.
  intros k b K. apply O.
  - destruct K as (g' & y0 & j0 & I & _ & Y0 & J0 & -> & _). pose proof (base_nonneg _ _ _ _ R W H I).
    pose proof (proj1 (Forall_forall _ _) R g' I) as R'. cbv beta in R'. nia.
  - intros [= -> ->]. exact (C K).
Qed.
Lemma call_exactly set T w h src dst sb db m n a : successful_call (converters set) T w h src dst sb db m ->
  (colour_byte src w h n a <->
   exists sb1 sb2 m1 m2, differ_at n a sb1 sb2 /\
    successful_call (converters set) T w h src dst sb1 db m1 /\ successful_call (converters set) T w h src dst sb2 db m2 /\ dsts m1 <> dsts m2).
Proof.
  intros S. split; [exact (call_matters set T w h src dst sb db m n a S)|].
  intros (sb1 & sb2 & m1 & m2 & D & S1 & S2 & N).
  destruct (success_valid _ _ _ _ _ _ _ _ _ S) as (Vs & Vd & Su).
  assert (N2 : i_pf src <> I422) by (intros E; rewrite E in Su; destruct (i_pf dst); discriminate Su).
  destruct (success_conv _ _ _ _ _ _ _ _ _ S1) as (_ & V1), (success_conv _ _ _ _ _ _ _ _ _ S2) as (_ & V2).
  destruct S as (_ & _ & W & H & [L1 L2] & _).
  assert (Dec : colour_byte src w h n a \/ ~ colour_byte src w h n a).
  { unfold colour_byte. clear - W H L2. assert (K : forall gs, Forall (fun g => g_row g <= g_stride g) gs ->
      (exists g y j, In g gs /\ n = g_buf g /\ 0 <= y < g_rows g /\ 0 <= j < g_row g /\ a = g_base g + y * g_stride g + j /\ is_alpha (i_pf src) (j mod 4) = false)
      \/ ~ (exists g y j, In g gs /\ n = g_buf g /\ 0 <= y < g_rows g /\ 0 <= j < g_row g /\ a = g_base g + y * g_stride g + j /\ is_alpha (i_pf src) (j mod 4) = false)).
    { induction gs as [|g gs IH]; intros F; [right; intros (g & _ & _ & [] & _)|].
      inversion F as [|? ? F1 F2]; subst. destruct (IH F2) as [(g' & y & j & I & K)|No]; [left; exists g', y, j; split; [right; exact I|exact K]|].
      set (d := a - g_base g).
      destruct (Nat.eq_dec n (g_buf g)) as [En|En]; [|right; intros (g' & y & j & [<-|I] & E' & K); [exact (En E')|apply No; exists g', y, j; repeat (first [assumption | split])]].
      destruct (Z_lt_ge_dec 0 (g_row g)) as [P|P]; [|right; intros (g' & y & j & [<-|I] & E' & K); [lia|apply No; exists g', y, j; repeat (first [assumption | split])]].
      destruct (Z_le_gt_dec 0 d) as [D0|D0]; [|right; intros (g' & y & j & [<-|I] & E' & Y & J & K & Al); [subst d; nia|apply No; exists g', y, j; repeat (first [assumption | split])]].
      destruct (Z_lt_ge_dec (d / g_stride g) (g_rows g)) as [D1|D1].
      2:{ right; intros (g' & y & j & [<-|I] & E' & Y & J & K & Al); [|apply No; exists g', y, j; repeat (first [assumption | split])].
          assert (Q : d / g_stride g = y) by (symmetry; apply Z.div_unique with j; [left; lia|subst d; lia]). lia. }
      destruct (Z_lt_ge_dec (d mod g_stride g) (g_row g)) as [D2|D2].
      2:{ right; intros (g' & y & j & [<-|I] & E' & Y & J & K & Al); [|apply No; exists g', y, j; repeat (first [assumption | split])].
          assert (Q : d mod g_stride g = j) by (symmetry; apply Z.mod_unique with y; [left; lia|subst d; lia]). lia. }
      destruct (is_alpha (i_pf src) ((d mod g_stride g) mod 4)) eqn:Al.
      { right; intros (g' & y & j & [<-|I] & E' & Y & J & K & Al'); [|apply No; exists g', y, j; repeat (first [assumption | split])].
          assert (Q : d mod g_stride g = j) by (symmetry; apply Z.mod_unique with y; [left; lia|subst d; lia]). rewrite Q in Al. congruence. }
      left. exists g, (d / g_stride g), (d mod g_stride g). split; [left; reflexivity|]. split; [exact En|].
      split; [split; [apply Z.div_pos; lia|exact D1]|]. split; [split; [apply Z.mod_pos_bound; lia|exact D2]|].
      split; [|exact Al]. pose proof (Z.div_mod d (g_stride g)) as DM. subst d. lia. }
    exact (K _ L2). }
  destruct Dec as [K|K]; [exact K|]. exfalso. apply N.
  apply (converted_same _ _ _ _ _ _ _ _ _ _ _ _ V1 V2).
  intros p g y j E Y J. exact (others_expected _ _ _ _ _ _ _ _ _ _ _ _ _ Vs Vd N2 K D E Y J W H L2).
Qed.
