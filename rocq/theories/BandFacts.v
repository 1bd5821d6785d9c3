(** Facts behind the theorems on bands. *)
From Coq Require Import ZArith List Bool Lia ZifyBool ZifyNat.
Import ListNotations.
From Verif Require Import Base Fmt CpuInfo Lib Sets Spec SetSpec ApiSpec Api ResultFacts PropFacts BandSpec.
Open Scope Z_scope.
Ltac Zify.zify_post_hook ::= Z.div_mod_to_equations.

(** ** Pieces of buffers *)

Lemma nth_numbered (F : nat -> list Z -> list Z) bufs p : (forall p, F p [] = []) ->
  nth p (map (fun '(p, b) => F p b) (numbered bufs)) [] = F p (nth p bufs []).
Proof.
  intros HF. unfold numbered.
  assert (G : forall l k, nth p (map (fun '(p, b) => F p b) (combine (seq k (length l)) l)) [] = F (k + p)%nat (nth p l [])).
  { revert p. intros p l. revert p. induction l as [|b l IH]; intros p k.
    - cbn. destruct p; rewrite HF; reflexivity.
    - cbn [length seq combine map]. destruct p; cbn [nth]; [f_equal; lia|]. rewrite IH. f_equal; lia. }
  rewrite G. f_equal.
Qed.

Lemma length_numbered (F : nat -> list Z -> list Z) bufs :
  length (map (fun '(p, b) => F p b) (numbered bufs)) = length bufs.
Proof. unfold numbered. rewrite map_length, combine_length, seq_length. lia. Qed.

Lemma nth_skipn (l : list Z) n i : nth i (skipn n l) 0 = nth (n + i) l 0.
Proof. revert l i. induction n; intros l i; [reflexivity|]. destruct l; cbn [skipn]; [destruct i; reflexivity|]. rewrite IHn. reflexivity. Qed.

Lemma nth_firstn (l : list Z) n i : (i < n)%nat -> nth i (firstn n l) 0 = nth i l 0.
Proof. revert l i. induction n; intros l i H; [lia|]. destruct l, i; cbn; auto. apply IHn. lia. Qed.

(** [part] is a piece of [bufs] that starts at row [y0]. *)
Definition piece (im : image) (w y0 : Z) (bufs part : list (list Z)) : Prop :=
  length part = length bufs /\
  forall p a, 0 <= a < buf_len part p ->
    nth (Z.to_nat a) (nth p part []) 0 = nth (Z.to_nat (row_start im w y0 p + a)) (nth p bufs []) 0.

(** ** The planes of images whose planes have a buffer of their own *)
Lemma own_plane im w h p g : own_buffers im -> valid_num_planes (i_pf im) (i_planes im) ->
  nth_error (image_planes im w h) p = Some g ->
  g = plane_of im w h p /\ g_buf g = p /\ g_base g = 0 /\ g_rows g = plane_rows (i_pf im) p h /\
  g_stride g = g_stride (plane_of im w 0 p) /\ g_row g = g_row (plane_of im w 0 p).
Proof.
  intros HO HV E. unfold plane_of, nth_plane.
  split; [symmetry; apply nth_error_nth; exact E|].
  unfold own_buffers in HO. unfold image_planes, planes in *.
  destruct (i_pf im); try destruct (Z.eqb_spec (i_planes im) 1);
    try (exfalso; apply HO; [reflexivity|assumption]);
    plane_case E p; cbn [g_buf g_base g_rows g_stride g_row nth plane_rows]; repeat split; reflexivity.
Qed.

Lemma own_planes_same im w h h' p g : own_buffers im ->
  nth_error (image_planes im w h) p = Some g ->
  exists g', nth_error (image_planes im w h') p = Some g'.
Proof.
  intros HO E. unfold own_buffers in HO. unfold image_planes, planes in *.
  destruct (i_pf im); try destruct (Z.eqb_spec (i_planes im) 1);
    try (exfalso; apply HO; [reflexivity|assumption]);
    plane_case E p; eexists; reflexivity.
Qed.

Lemma plane_of_nth im w h p g : nth_error (image_planes im w h) p = Some g -> plane_of im w h p = g.
Proof. intros E. apply nth_error_nth. exact E. Qed.

Lemma stride_nonneg im w h p : own_buffers im -> valid_num_planes (i_pf im) (i_planes im) -> 0 < w ->
  rows_apart im w h -> 0 <= g_stride (plane_of im w 0 p).
Proof.
  intros Od Nd W0 Rd.
  destruct (nth_error (image_planes im w h) p) as [g|] eqn:E.
  - destruct (own_plane im w h p g Od Nd E) as (_ & _ & _ & _ & St & Wd). rewrite <- St.
    unfold rows_apart in Rd. rewrite Forall_forall in Rd. specialize (Rd g (nth_error_In _ _ E)).
    assert (0 <= g_row g); [|lia]. clear - E W0. unfold image_planes, planes in E.
    destruct (i_pf im); try destruct (i_planes im =? 1); plane_case E p; cbn [g_row bytes_per_pixel]; lia.
  - destruct (nth_error (image_planes im w 0) p) as [g|] eqn:E2.
    + destruct (own_planes_same im w 0 h p g Od E2). congruence.
    + unfold plane_of, nth_plane. rewrite nth_overflow by (apply nth_error_None; exact E2). cbn. lia.
Qed.

Lemma plane_rows_mono pf p a b : a <= b -> plane_rows pf p a <= plane_rows pf p b.
Proof. intros H. unfold plane_rows. destruct pf, p; lia. Qed.

Lemma plane_rows_nonneg pf p a : 0 <= a -> 0 <= plane_rows pf p a.
Proof. intros H. unfold plane_rows. destruct pf, p; lia. Qed.

Lemma row_start_nonneg im w h y p : own_buffers im -> valid_num_planes (i_pf im) (i_planes im) -> 0 < w ->
  rows_apart im w h -> 0 <= y -> 0 <= row_start im w y p.
Proof.
  intros. unfold row_start. apply Z.mul_nonneg_nonneg; [apply plane_rows_nonneg; lia|eapply stride_nonneg; eauto].
Qed.

Section Cut.
Variable im : image.
Variables w h h' y0 : Z.
Hypothesis HO : own_buffers im.
Hypothesis HP : valid_num_planes (i_pf im) (i_planes im).
Hypothesis Hz : valid_size (i_pf im) w h.
Hypothesis Hz' : valid_size (i_pf im) w h'.
Hypothesis Hy0 : 0 <= y0.
Hypothesis Hh' : 0 < h'.
Hypothesis Hh : y0 + h' <= h.
Hypothesis Heven : match i_pf im with I420 | Nv12 => y0 mod 2 = 0 | _ => True end.
Variables bufs part : list (list Z).
Hypothesis HC : piece im w y0 bufs part.
Hypothesis HI : image_in 0 im w h' part.
Hypothesis HR : rows_apart im w h'.

Lemma cut_sample p g g' y j : nth_error (image_planes im w h) p = Some g ->
  nth_error (image_planes im w h') p = Some g' -> 0 <= y < g_rows g' -> 0 <= j < g_row g' ->
  sample part g' y j = sample bufs g (plane_rows (i_pf im) p y0 + y) j.
Proof.
  intros E E' Hy Hj.
  destruct (own_plane im w h p g HO HP E) as (_ & B & Z0 & R & S & W).
  destruct (own_plane im w h' p g' HO HP E') as (_ & B' & Z0' & R' & S' & W').
  unfold image_in, rows_apart in *. rewrite Forall_forall in HI, HR.
  apply nth_error_In in E'. specialize (HI g' E'). specialize (HR g' E'). unfold plane_in in HI.
  unfold sample. rewrite B, B', Z0, Z0', S, S'. destruct HC as [_ H]. rewrite H.
  - unfold row_start. f_equal. f_equal. lia.
  - rewrite B' in HI. split; [nia|]. rewrite Z0', S' in HI. nia.
Qed.

Lemma cut_pixel x y : 0 <= x < w -> 0 <= y < h' -> pixel im w h' part x y = pixel im w h bufs x (y0 + y).
Proof.
  intros Hx Hy. unfold pixel, rgb_pixel, ycc_pixel.
  assert (D : (y0 + y) / 2 = y0 / 2 + y / 2 \/ match i_pf im with I420 | Nv12 => False | _ => True end)
    by (destruct (i_pf im); try (right; exact I); left; lia).
  assert (K : forall p g, nth_error (image_planes im w h) p = Some g ->
    exists g', nth_error (image_planes im w h') p = Some g' /\ nth_plane (image_planes im w h) p = g /\
      nth_plane (image_planes im w h') p = g' /\ g_rows g' = plane_rows (i_pf im) p h' /\ g_row g' = g_row g /\
      forall y j, 0 <= y < g_rows g' -> 0 <= j < g_row g' -> sample part g' y j = sample bufs g (plane_rows (i_pf im) p y0 + y) j).
  { intros p g E. destruct (own_planes_same im w h h' p g HO E) as [g' E']. exists g'. split; [exact E'|].
    split; [apply (plane_of_nth im w h p g E)|]. split; [apply (plane_of_nth im w h' p g' E')|].
    destruct (own_plane im w h p g HO HP E) as (_ & _ & _ & _ & _ & W).
    destruct (own_plane im w h' p g' HO HP E') as (_ & _ & _ & R' & _ & W').
    split; [exact R'|]. split; [congruence|]. intros. apply cut_sample; auto. }
  destruct (i_pf im) eqn:EF; cbn [is_rgb component_offsets bytes_per_pixel valid_size plane_rows] in *;
  unfold own_buffers in HO; rewrite EF in HO;
  match type of EF with
  | _ = Nv12 =>
      assert (En : i_planes im =? 1 = false) by (specialize (HO eq_refl); lia);
      destruct (K 0%nat (Geom 0 0 (eff_stride (i_strides im) 0 w) h w)) as (g0 & _ & -> & -> & R0 & W0 & S0);
        [unfold image_planes, planes; rewrite EF, En; reflexivity|];
      destruct (K 1%nat (Geom 1 0 (eff_stride (i_strides im) 1 w) (h / 2) w)) as (g1 & _ & -> & -> & R1 & W1 & S1);
        [unfold image_planes, planes; rewrite EF, En; reflexivity|];
      cbn [g_row plane_rows] in *; rewrite S0, !S1 by lia; destruct D as [D|D]; [rewrite D; reflexivity|tauto]
  | _ = I420 =>
      destruct (K 0%nat (Geom 0 0 (eff_stride (i_strides im) 0 w) h w)) as (g0 & _ & -> & -> & R0 & W0 & S0);
        [unfold image_planes, planes; rewrite EF; reflexivity|];
      destruct (K 1%nat (Geom 1 0 (eff_stride (i_strides im) 1 (w / 2)) (h / 2) (w / 2))) as (g1 & _ & -> & -> & R1 & W1 & S1);
        [unfold image_planes, planes; rewrite EF; reflexivity|];
      destruct (K 2%nat (Geom 2 0 (eff_stride (i_strides im) 2 (w / 2)) (h / 2) (w / 2))) as (g2 & _ & -> & -> & R2 & W2 & S2);
        [unfold image_planes, planes; rewrite EF; reflexivity|];
      cbn [g_row plane_rows] in *; rewrite S0, S1, S2 by lia; destruct D as [D|D]; [rewrite D; reflexivity|tauto]
  | _ = I422 =>
      destruct (K 0%nat (Geom 0 0 (eff_stride (i_strides im) 0 w) h w)) as (g0 & _ & -> & -> & R0 & W0 & S0);
        [unfold image_planes, planes; rewrite EF; reflexivity|];
      destruct (K 1%nat (Geom 1 0 (eff_stride (i_strides im) 1 (w / 2)) h (w / 2))) as (g1 & _ & -> & -> & R1 & W1 & S1);
        [unfold image_planes, planes; rewrite EF; reflexivity|];
      destruct (K 2%nat (Geom 2 0 (eff_stride (i_strides im) 2 (w / 2)) h (w / 2))) as (g2 & _ & -> & -> & R2 & W2 & S2);
        [unfold image_planes, planes; rewrite EF; reflexivity|];
      cbn [g_row plane_rows] in *; rewrite S0, S1, S2 by lia; reflexivity
  | _ = I444 =>
      destruct (K 0%nat (Geom 0 0 (eff_stride (i_strides im) 0 w) h w)) as (g0 & _ & -> & -> & R0 & W0 & S0);
        [unfold image_planes, planes; rewrite EF; reflexivity|];
      destruct (K 1%nat (Geom 1 0 (eff_stride (i_strides im) 1 w) h w)) as (g1 & _ & -> & -> & R1 & W1 & S1);
        [unfold image_planes, planes; rewrite EF; reflexivity|];
      destruct (K 2%nat (Geom 2 0 (eff_stride (i_strides im) 2 w) h w)) as (g2 & _ & -> & -> & R2 & W2 & S2);
        [unfold image_planes, planes; rewrite EF; reflexivity|];
      cbn [g_row plane_rows] in *; rewrite S0, S1, S2 by lia; reflexivity
  | _ = ?f =>
      let b := eval cbn in (bytes_per_pixel f) in
      destruct (K 0%nat (Geom 0 0 (eff_stride (i_strides im) 0 (b * w)) h (b * w))) as (g0 & _ & -> & -> & R0 & W0 & S0);
        [unfold image_planes, planes; rewrite EF; reflexivity|];
      cbn [g_row plane_rows] in *; rewrite !S0 by lia; reflexivity
  end.
Qed.
End Cut.

Lemma source_shift A src w h h' sb sb' x y y' :
  pixel src w h' sb' x y = pixel src w h sb x y' ->
  source_rgb A src w h' sb' x y = source_rgb A src w h sb x y'.
Proof.
  intros H. unfold source_rgb, pixel in *. destruct (is_rgb (i_pf src)); [exact H|]. rewrite H. reflexivity.
Qed.

Lemma expected_shift A src dst w h h' y0 sb sb' p g' y j :
  match i_pf dst with I420 | Nv12 => y0 mod 2 = 0 | _ => True end -> valid_size (i_pf dst) w h' ->
  nth_error (image_planes dst w h') p = Some g' -> 0 <= y < g_rows g' -> 0 <= j < g_row g' ->
  (forall x y, 0 <= x < w -> 0 <= y < h' ->
     source_rgb A src w h' sb' x y = source_rgb A src w h sb x (y0 + y)) ->
  expected A src dst w h' sb' p y j = expected A src dst w h sb p (plane_rows (i_pf dst) p y0 + y) j.
Proof.
  intros He Hz E Hy Hj HS. unfold expected. unfold image_planes, planes in E. unfold block_sum.
  destruct (i_pf dst); cbn [valid_size bytes_per_pixel] in *;
    try destruct (i_planes dst =? 1); plane_case E p; cbn [g_rows g_row plane_rows bytes_per_pixel] in *;
    rewrite ?HS by lia; try reflexivity;
    repeat match goal with |- context [y0 + (2 * y + 1)] => replace (y0 + (2 * y + 1)) with (2 * (y0 / 2 + y) + 1) by lia end;
    repeat match goal with |- context [y0 + 2 * y] => replace (y0 + 2 * y) with (2 * (y0 / 2 + y)) by lia end;
    reflexivity.
Qed.

(** A call on a piece of the source, into a piece of the destination. *)
Lemma piece_call set T T' w h h' y0 src dst sb db sb' db' m m' :
  successful_call (converters set) T w h src dst sb db m ->
  successful_call (converters set) T' w h' src dst sb' db' m' ->
  own_buffers src -> own_buffers dst -> 0 <= y0 -> y0 + h' <= h ->
  (is_rgb (i_pf src) = true /\ is_rgb (i_pf dst) = true \/ y0 mod 2 = 0 \/ i_pf src = I444 \/ i_pf dst = I444) ->
  piece src w y0 sb sb' -> piece dst w y0 db db' ->
  (forall p a, 0 <= a < buf_len db' p ->
     y0 + h' = h \/ row_start dst w y0 p + a < row_start dst w (y0 + h') p) ->
  piece dst w y0 (dsts m) (dsts m').
Proof.
  intros HS HS' Os Od Hy0 Hh HE Ps Pd HL.
  destruct (success_valid _ _ _ _ _ _ _ _ _ HS) as ((_ & Ns & Zs) & (_ & Nd & Zd) & Hsup).
  destruct (success_valid _ _ _ _ _ _ _ _ _ HS') as ((_ & _ & Zs') & (_ & _ & Zd') & _).
  destruct (success_conv _ _ _ _ _ _ _ _ _ HS) as [_ (L & S & F)].
  destruct (success_conv _ _ _ _ _ _ _ _ _ HS') as [_ (L' & S' & F')].
  destruct HS as (_ & _ & W0 & H0 & [Is Rs] & [Id Rd] & _).
  destruct HS' as (_ & _ & _ & H0' & [Is' Rs'] & [Id' Rd'] & _).
  assert (Es : match i_pf src with I420 | Nv12 => y0 mod 2 = 0 | _ => True end).
  { destruct (i_pf src) eqn:E1; auto; destruct HE as [[HE _]|[HE|[HE|HE]]]; try discriminate; auto;
      rewrite HE in Hsup; discriminate. }
  assert (Ed : match i_pf dst with I420 | Nv12 => y0 mod 2 = 0 | _ => True end).
  { destruct (i_pf dst) eqn:E1; auto; destruct HE as [[_ HE]|[HE|[HE|HE]]]; try discriminate; auto;
      rewrite HE in Hsup; discriminate. }
  assert (HX : forall x y, 0 <= x < w -> 0 <= y < h' -> pixel src w h' sb' x y = pixel src w h sb x (y0 + y)).
  { intros x y. eapply cut_pixel; eauto. }
  destruct Pd as [Pl Pb].
  destruct (map_length_eq _ _ L) as [M1 M2]. destruct (map_length_eq _ _ L') as [M1' M2'].
  split; [congruence|]. intros p a Ha. unfold buf_len in Ha. rewrite M2' in Ha.
  specialize (Pb p a Ha). specialize (HL p a Ha).
  destruct (in_image_dec dst w h' p a) as [(g' & y & j & Hg & Ep & Hy & Hj & Ea)|Hno].
  - apply In_nth_error in Hg. destruct Hg as [q Eq].
    destruct (own_plane dst w h' q g' Od Nd Eq) as (_ & B' & Z0' & R' & St' & Wd').
    assert (HQ : q = p) by congruence. rewrite HQ in *. clear HQ.
    destruct (own_planes_same dst w h' h p g' Od Eq) as [g E].
    destruct (own_plane dst w h p g Od Nd E) as (_ & B & Z0 & R & St & Wd).
    rewrite <- B' at 1. rewrite (sample_at _ g' y j a Ea). rewrite (S' p g' Eq y j Hy Hj).
    replace (nth (Z.to_nat (row_start dst w y0 p + a)) (nth p (dsts m) []) 0)
      with (sample (dsts m) g (plane_rows (i_pf dst) p y0 + y) j)
      by (unfold sample, row_start; rewrite B, Ea, Z0, Z0', St, St'; f_equal; f_equal; lia).
    assert (Hp : 0 <= plane_rows (i_pf dst) p y0 /\ plane_rows (i_pf dst) p y0 + g_rows g' <= g_rows g).
    { rewrite R, R'. unfold plane_rows. destruct (i_pf dst), p; lia. }
    rewrite (S p g E _ j) by (try lia; rewrite Wd, <- Wd'; lia).
    eapply expected_shift; eauto.
    intros x y1 Hx Hy1. apply source_shift. apply HX; auto.
  - rewrite F' by auto. rewrite Pb. symmetry.
    assert (OP : 0 <= row_start dst w y0 p) by (eapply row_start_nonneg; eauto; lia).
    destruct (Z_lt_ge_dec (row_start dst w y0 p + a) (buf_len db p)) as [Hin|Hout].
    + apply F; [lia|]. intros (g & y & j & Hg & Ep & Hy & Hj & Ea).
      apply Hno. apply In_nth_error in Hg. destruct Hg as [q E].
      destruct (own_plane dst w h q g Od Nd E) as (_ & B & Z0 & R & St & Wd).
      assert (HQ : q = p) by congruence. rewrite HQ in *. clear HQ.
      destruct (own_planes_same dst w h h' p g Od E) as [g' Eq].
      destruct (own_plane dst w h' p g' Od Nd Eq) as (_ & B' & Z0' & R' & St' & Wd').
      unfold rows_apart in Rd'. rewrite Forall_forall in Rd'. specialize (Rd' g' (nth_error_In _ _ Eq)).
      exists g', (y - plane_rows (i_pf dst) p y0), j.
      split; [apply (nth_error_In _ _ Eq)|]. split; [congruence|].
      unfold row_start in Ea, HL. rewrite St, Z0 in Ea. rewrite Wd in Hj. rewrite St', Wd' in Rd'.
      set (s := g_stride (plane_of dst w 0 p)) in *. set (k := plane_rows (i_pf dst) p y0) in *.
      assert (K1 : k <= y) by (destruct (Z_lt_ge_dec y k); [exfalso; nia|lia]).
      assert (K2 : plane_rows (i_pf dst) p (y0 + h') = k + g_rows g').
      { rewrite R'. unfold k, plane_rows. destruct (i_pf dst), p; lia. }
      assert (K3 : y < k + g_rows g').
      { destruct HL as [HL|HL].
        - rewrite <- K2, HL, <- R. lia.
        - rewrite K2 in HL. destruct (Z_lt_ge_dec y (k + g_rows g')); [lia|exfalso; nia]. }
      rewrite Z0', St', Wd'. fold s. repeat split; try lia.
    + unfold buf_len in Hout. rewrite (nth_overflow (nth p (dsts m) [])) by (rewrite M2; lia).
      rewrite (nth_overflow (nth p db [])) by lia. reflexivity.
Qed.

Lemma piece_ext im w y0 bufs part part' : piece im w y0 bufs part -> map (@length Z) part = map (@length Z) part' ->
  piece im w y0 bufs part' -> part = part'.
Proof.
  intros [_ H] L [_ H']. apply bufs_ext; [exact L|]. intros n i Hi. rewrite H by exact Hi.
  rewrite H'; [reflexivity|]. rewrite <- (buf_len_map _ _ n L). exact Hi.
Qed.

Lemma band_nth im w y0 y1 bufs p : nth p (band im w y0 y1 bufs) [] =
  firstn (Z.to_nat (row_start im w y1 p - row_start im w y0 p)) (skipn (Z.to_nat (row_start im w y0 p)) (nth p bufs [])).
Proof.
  unfold band. apply (nth_numbered (fun p b => firstn (Z.to_nat (row_start im w y1 p - row_start im w y0 p))
    (skipn (Z.to_nat (row_start im w y0 p)) b))). intros q. rewrite skipn_nil, firstn_nil. reflexivity.
Qed.

Lemma rest_nth im w y0 bufs p : nth p (rest im w y0 bufs) [] = skipn (Z.to_nat (row_start im w y0 p)) (nth p bufs []).
Proof.
  unfold rest. apply (nth_numbered (fun p b => skipn (Z.to_nat (row_start im w y0 p)) b)). intros q. apply skipn_nil.
Qed.

Lemma band_length im w y0 y1 bufs : length (band im w y0 y1 bufs) = length bufs.
Proof.
  unfold band. apply (length_numbered (fun p b => firstn (Z.to_nat (row_start im w y1 p - row_start im w y0 p))
    (skipn (Z.to_nat (row_start im w y0 p)) b))).
Qed.

Lemma rest_length im w y0 bufs : length (rest im w y0 bufs) = length bufs.
Proof. unfold rest. apply (length_numbered (fun p b => skipn (Z.to_nat (row_start im w y0 p)) b)). Qed.

Lemma map_length_ext (a b : list (list Z)) : length a = length b ->
  (forall p, length (nth p a []) = length (nth p b [])) -> map (@length Z) a = map (@length Z) b.
Proof.
  intros L H. apply nth_ext with (d := 0%nat) (d' := 0%nat); [rewrite !map_length; exact L|].
  intros n _. change 0%nat with (length (@nil Z)). rewrite !map_nth. apply H.
Qed.

Lemma band_piece im w y0 y1 bufs : (forall p, 0 <= row_start im w y0 p) -> piece im w y0 bufs (band im w y0 y1 bufs).
Proof.
  intros H0. split; [apply band_length|]. intros p a Ha. unfold buf_len in Ha. rewrite band_nth in *.
  rewrite firstn_length in Ha. rewrite nth_firstn by lia. rewrite nth_skipn. f_equal. specialize (H0 p). lia.
Qed.

Lemma rest_piece im w y0 bufs : (forall p, 0 <= row_start im w y0 p) -> piece im w y0 bufs (rest im w y0 bufs).
Proof.
  intros H0. split; [apply rest_length|]. intros p a Ha. rewrite rest_nth. rewrite nth_skipn. f_equal. specialize (H0 p). lia.
Qed.

(** Bands: rows [y0] to [y1]. *)
Lemma band_call set T T' w h y0 y1 src dst sb db m m' :
  successful_call (converters set) T w h src dst sb db m ->
  successful_call (converters set) T' w (y1 - y0) src dst (band src w y0 y1 sb) (band dst w y0 y1 db) m' ->
  own_buffers src -> own_buffers dst -> 0 <= y0 -> y1 <= h ->
  (is_rgb (i_pf src) = true /\ is_rgb (i_pf dst) = true \/ y0 mod 2 = 0 \/ i_pf src = I444 \/ i_pf dst = I444) ->
  dsts m' = band dst w y0 y1 (dsts m).
Proof.
  intros HS HS' Os Od Hy0 Hy1 HE.
  destruct (success_valid _ _ _ _ _ _ _ _ _ HS) as ((_ & Ns & _) & (_ & Nd & _) & _).
  destruct (success_conv _ _ _ _ _ _ _ _ _ HS) as [_ (L & _)].
  destruct (success_conv _ _ _ _ _ _ _ _ _ HS') as [_ (L' & _)].
  assert (Ps : forall p, 0 <= row_start src w y0 p).
  { intros p. destruct HS as (_ & _ & W0 & _ & [_ R] & _). eapply row_start_nonneg; eauto. }
  assert (Pd : forall p, 0 <= row_start dst w y0 p).
  { intros p. destruct HS as (_ & _ & W0 & _ & _ & [_ R] & _). eapply row_start_nonneg; eauto. }
  apply piece_ext with (im := dst) (w := w) (y0 := y0) (bufs := dsts m).
  - eapply piece_call; eauto; try lia; [apply band_piece; exact Ps|apply band_piece; exact Pd|].
    intros p a Ha. right. unfold buf_len in Ha. rewrite band_nth, firstn_length in Ha.
    replace (y0 + (y1 - y0)) with y1 by lia. lia.
  - rewrite L'. destruct (map_length_eq _ _ L) as [M1 M2]. apply map_length_ext; [rewrite !band_length; congruence|].
    intros p. rewrite !band_nth, !firstn_length, !skipn_length, M2. reflexivity.
  - apply band_piece. exact Pd.
Qed.

Lemma rest_call set T T' w h y0 src dst sb db m m' :
  successful_call (converters set) T w h src dst sb db m ->
  successful_call (converters set) T' w (h - y0) src dst (rest src w y0 sb) (rest dst w y0 db) m' ->
  own_buffers src -> own_buffers dst -> 0 <= y0 ->
  (is_rgb (i_pf src) = true /\ is_rgb (i_pf dst) = true \/ y0 mod 2 = 0 \/ i_pf src = I444 \/ i_pf dst = I444) ->
  dsts m' = rest dst w y0 (dsts m).
Proof.
  intros HS HS' Os Od Hy0 HE.
  destruct (success_valid _ _ _ _ _ _ _ _ _ HS) as ((_ & Ns & _) & (_ & Nd & _) & _).
  destruct (success_conv _ _ _ _ _ _ _ _ _ HS) as [_ (L & _)].
  destruct (success_conv _ _ _ _ _ _ _ _ _ HS') as [_ (L' & _)].
  assert (Ps : forall p, 0 <= row_start src w y0 p).
  { intros p. destruct HS as (_ & _ & W0 & _ & [_ R] & _). eapply row_start_nonneg; eauto. }
  assert (Pd : forall p, 0 <= row_start dst w y0 p).
  { intros p. destruct HS as (_ & _ & W0 & _ & _ & [_ R] & _). eapply row_start_nonneg; eauto. }
  apply piece_ext with (im := dst) (w := w) (y0 := y0) (bufs := dsts m).
  - eapply piece_call; eauto; try lia; [apply rest_piece; exact Ps|apply rest_piece; exact Pd].
  - rewrite L'. destruct (map_length_eq _ _ L) as [M1 M2]. apply map_length_ext; [rewrite !rest_length; congruence|].
    intros p. rewrite !rest_nth, !skipn_length, M2. reflexivity.
  - apply rest_piece. exact Pd.
Qed.

Lemma plane_rows_le pf p y y' : y <= y' -> plane_rows pf p y <= plane_rows pf p y'.
Proof. intros H. unfold plane_rows. destruct pf, p; lia. Qed.

Lemma rest_zero im w bufs p : nth p (rest im w 0 bufs) [] = nth p bufs [].
Proof.
  rewrite rest_nth. unfold row_start. replace (plane_rows (i_pf im) p 0) with 0; [reflexivity|].
  unfold plane_rows. destruct (i_pf im), p; reflexivity.
Qed.

Lemma skipn_plus {A} (a b : nat) (l : list A) : skipn a (skipn b l) = skipn (a + b) l.
Proof.
  revert b. induction l as [|x l IH]; intros b; [rewrite !skipn_nil; reflexivity|].
  destruct b as [|b]; [rewrite Nat.add_0_r; reflexivity|]. rewrite Nat.add_succ_r. cbn [skipn]. apply IH.
Qed.

Lemma band_rest im w y y' bufs p : 0 <= row_start im w y p <= row_start im w y' p ->
  nth p (band im w y y' bufs) [] ++ nth p (rest im w y' bufs) [] = nth p (rest im w y bufs) [].
Proof.
  intros H. rewrite band_nth, !rest_nth. set (b := nth p bufs []). clearbody b.
  replace (Z.to_nat (row_start im w y' p))
    with (Z.to_nat (row_start im w y' p - row_start im w y p) + Z.to_nat (row_start im w y p))%nat by lia.
  rewrite <- skipn_plus. apply firstn_skipn.
Qed.

Lemma bands_whole set T w h src dst sb db m rs :
  successful_call (converters set) T w h src dst sb db m -> own_buffers src -> own_buffers dst ->
  in_bands (fun n s d r => exists T' m', successful_call (converters set) T' w n src dst s d m' /\ r = dsts m')
    src dst w h sb db 0 rs ->
  forall p, nth p (dsts m) [] = concat (map (fun r => nth p r []) rs).
Proof.
  intros HS Os Od HB p.
  assert (G : forall y rs, in_bands (fun n s d r => exists T' m', successful_call (converters set) T' w n src dst s d m' /\ r = dsts m')
    src dst w h sb db y rs -> 0 <= y -> cut_ok src dst y ->
    concat (map (fun r => nth p r []) rs) = nth p (rest dst w y (dsts m)) []).
  { clear HB rs. intros y rs HB. induction HB as [y r (T' & m' & HC & ->)|y y' r rs Hy Hc (T' & m' & HC & ->) HB IH]; intros H0 Hcut.
    - cbn [map concat]. rewrite app_nil_r. f_equal. eapply rest_call; eauto.
    - cbn [map concat]. rewrite IH by (auto; lia).
      rewrite (band_call set T T' w h y y' src dst sb db m m') by (auto; lia).
      destruct (success_valid _ _ _ _ _ _ _ _ _ HS) as (_ & (_ & Nd & _) & _).
      destruct HS as (_ & _ & W0 & _ & _ & [_ R] & _).
      apply band_rest. unfold row_start.
      assert (0 <= g_stride (plane_of dst w 0 p)) by (eapply stride_nonneg; eauto).
      split; [apply Z.mul_nonneg_nonneg; [apply plane_rows_nonneg; lia|lia]|].
      apply Z.mul_le_mono_nonneg_r; [lia|apply plane_rows_le; lia]. }
  rewrite (G 0 rs HB) by (lia || (right; left; reflexivity)). rewrite rest_zero. reflexivity.
Qed.
