(** Proofs about rectangles of a picture. *)
From Coq Require Import ZArith List Bool Lia ZifyBool ZifyNat.
Import ListNotations.
From Verif Require Import Base Fmt Wrappers CpuInfo Lib Sets Spec SetSpec ApiSpec AcceptSpec Api ResultFacts PropFacts BandSpec BandFacts Thread ThreadSpec ThreadFacts
  TraceSpec TraceRunFacts CThread CThreadSpec CThreadFacts CThreadRunFacts TileSpec.
Open Scope Z_scope.
Ltac Zify.zify_post_hook ::= Z.div_mod_to_equations.

(** ** Planes *)
Lemma plane_number im w h w' h' p g : nth_error (image_planes im w h) p = Some g -> own_buffers im ->
  exists g', nth_error (image_planes (rect_image im w h) w' h') p = Some g'.
Proof.
  intros E HO. unfold own_buffers in HO. unfold rect_image, image_planes, planes in *. cbn [i_pf i_planes i_strides].
  destruct (i_pf im); try destruct (Z.eqb_spec (i_planes im) 1);
    try (exfalso; apply HO; [reflexivity|assumption]);
    plane_case E p; eexists; reflexivity.
Qed.
Lemma plane_number_back im w h w' h' p g' : nth_error (image_planes (rect_image im w h) w' h') p = Some g' -> own_buffers im ->
  exists g, nth_error (image_planes im w h) p = Some g.
Proof.
  intros E HO. unfold own_buffers in HO. unfold rect_image, image_planes, planes in *. cbn [i_pf i_planes i_strides] in E.
  destruct (i_pf im); try destruct (Z.eqb_spec (i_planes im) 1);
    try (exfalso; apply HO; [reflexivity|assumption]);
    plane_case E p; eexists; reflexivity.
Qed.
Lemma plane_row im w h p g : own_buffers im -> nth_error (image_planes im w h) p = Some g -> g_row g = plane_cols (i_pf im) p w.
Proof.
  intros HO E. unfold own_buffers in HO. unfold image_planes, planes in *.
  destruct (i_pf im); try destruct (Z.eqb_spec (i_planes im) 1);
    try (exfalso; apply HO; [reflexivity|assumption]);
    plane_case E p; reflexivity.
Qed.
Lemma eff_given l i row : nth i l 0 <> 0 -> eff_stride (Some l) i row = nth i l 0.
Proof. intros H. unfold eff_stride. destruct (Z.eqb_spec (nth i l 0) 0); [contradiction|reflexivity]. Qed.
Lemma rect_plane im w h w' h' p g g' : own_buffers im -> 0 < w -> valid_size (i_pf im) w h -> rows_apart im w h ->
  nth_error (image_planes im w h) p = Some g -> nth_error (image_planes (rect_image im w h) w' h') p = Some g' ->
  g_stride g' = g_stride g.
Proof.
  intros HO W V R E E'. unfold rows_apart in R. rewrite Forall_forall in R. specialize (R g (nth_error_In _ _ E)).
  unfold own_buffers in HO. unfold rect_image, image_planes, planes in *. cbn [i_pf i_planes i_strides] in E'.
  destruct (i_pf im); try destruct (Z.eqb_spec (i_planes im) 1);
    try (exfalso; apply HO; [reflexivity|assumption]);
    plane_case E p; cbn [nth_error] in E'; match type of E' with Some ?a = Some ?b => assert (b = a) by congruence; subst b; clear E' end;
    cbn [g_stride g_row bytes_per_pixel valid_size map] in *; (rewrite eff_given; cbn [nth]; [reflexivity|lia]).
Qed.
Lemma plane_cols_add pf p a b h : valid_size pf a h -> plane_cols pf p (a + b) = plane_cols pf p a + plane_cols pf p b.
Proof. intros H. unfold plane_cols. destruct pf, p; cbn [valid_size bytes_per_pixel] in *; lia. Qed.
Lemma plane_rows_add pf p a b w : valid_size pf w a -> plane_rows pf p (a + b) = plane_rows pf p a + plane_rows pf p b.
Proof. intros H. unfold plane_rows. destruct pf, p; cbn [valid_size] in *; lia. Qed.
Lemma plane_cols_mono pf p a b : a <= b -> plane_cols pf p a <= plane_cols pf p b.
Proof. intros H. unfold plane_cols. destruct pf, p; cbn [bytes_per_pixel]; lia. Qed.
Lemma plane_cols_nonneg pf p a : 0 <= a -> 0 <= plane_cols pf p a.
Proof. intros H. unfold plane_cols. destruct pf, p; cbn [bytes_per_pixel]; lia. Qed.

Lemma nth_regions im w r rs p : (p < length rs)%nat ->
  nth p (rect_regions im w r rs) (Region 0 0) =
  Region (r_base (nth p rs (Region 0 0)) + rect_start im w r p) (r_len (nth p rs (Region 0 0)) - rect_start im w r p).
Proof.
  unfold rect_regions, numbered_regions. set (F := fun '(p, reg) => _).
  assert (G : forall l k i, (i < length l)%nat -> nth i (map F (combine (seq k (length l)) l)) (Region 0 0) = F ((k + i)%nat, nth i l (Region 0 0))).
  { induction l as [|b l IH]; intros k i L; cbn [length] in *; [lia|]. cbn [seq combine map].
    destruct i; cbn [nth]; [f_equal; f_equal; lia|]. rewrite IH by lia. f_equal. f_equal. lia. }
  intros L. rewrite G by exact L. reflexivity.
Qed.
Lemma len_regions im w r rs : length (rect_regions im w r rs) = length rs.
Proof. unfold rect_regions, numbered_regions. rewrite map_length, combine_length, seq_length. lia. Qed.

(** ** One image *)
Section Im.
Variables (im : image) (w h : Z) (r : rect) (hp : memory) (rs : list region).
Hypothesis HO : own_buffers im.
Hypothesis HV : valid_image im w h.
Hypothesis Hw : 0 < w.
Hypothesis Hh : 0 < h.
Hypothesis HL : laid_out im w h (map (bytes_of hp) rs).
Hypothesis HX : 0 <= x0 r /\ 0 < wide r /\ x0 r + wide r <= w /\ 0 <= y0 r /\ 0 < high r /\ y0 r + high r <= h.
Hypothesis HZ : valid_size (i_pf im) (wide r) (high r).
Hypothesis H0 : valid_size (i_pf im) (x0 r) (y0 r).
Notation im' := (rect_image im w h).
Notation rs' := (rect_regions im w r rs).

(** Everything about plane [p] of the rectangle. *)
Lemma rect_geom p g' : nth_error (image_planes im' (wide r) (high r)) p = Some g' ->
  exists g, nth_error (image_planes im w h) p = Some g /\
    g_buf g' = p /\ g_base g' = 0 /\ g_buf g = p /\ g_base g = 0 /\ g_stride g' = g_stride g /\
    g_rows g' = plane_rows (i_pf im) p (high r) /\ g_row g' = plane_cols (i_pf im) p (wide r) /\
    g_rows g = plane_rows (i_pf im) p h /\ g_row g = plane_cols (i_pf im) p w /\
    rect_start im w r p = plane_rows (i_pf im) p (y0 r) * g_stride g + plane_cols (i_pf im) p (x0 r) /\
    g_row g <= g_stride g /\ 0 <= g_row g' /\ 0 <= g_rows g' /\
    0 <= plane_rows (i_pf im) p (y0 r) /\ plane_rows (i_pf im) p (y0 r) + g_rows g' <= g_rows g /\
    0 <= plane_cols (i_pf im) p (x0 r) /\ plane_cols (i_pf im) p (x0 r) + g_row g' <= g_row g.
Proof.
  intros E'. destruct (plane_number_back im w h _ _ p g' E' HO) as [g E]. exists g. split; [exact E|].
  assert (HO' : own_buffers im') by exact HO. destruct HV as (_ & VN & VS).
  destruct (own_plane im' _ _ p g' HO' VN E') as (_ & B' & Z' & R' & _ & _).
  destruct (own_plane im _ _ p g HO VN E) as (_ & B & Z & R & S & _).
  pose proof (plane_row im' _ _ p g' HO' E') as W'. pose proof (plane_row im _ _ p g HO E) as W.
  destruct HL as [_ RA]. pose proof (rect_plane im w h _ _ p g g' HO Hw VS RA E E') as S'.
  cbn [rect_image i_pf] in R', W'.
  unfold rows_apart in RA. rewrite Forall_forall in RA. specialize (RA g (nth_error_In _ _ E)).
  pose proof (plane_cols_add (i_pf im) p (x0 r) (wide r) _ H0). pose proof (plane_rows_add (i_pf im) p (y0 r) (high r) _ H0).
  pose proof (plane_cols_mono (i_pf im) p (x0 r + wide r) w ltac:(lia)). pose proof (plane_rows_mono (i_pf im) p (y0 r + high r) h ltac:(lia)).
  pose proof (plane_cols_nonneg (i_pf im) p (x0 r) ltac:(lia)). pose proof (plane_rows_nonneg (i_pf im) p (y0 r) ltac:(lia)).
  pose proof (plane_cols_nonneg (i_pf im) p (wide r) ltac:(lia)). pose proof (plane_rows_nonneg (i_pf im) p (high r) ltac:(lia)).
  unfold rect_start, row_start. rewrite <- S. clear HX HZ H0 HL HV E E'. repeat split; try assumption; try congruence; lia.
Qed.

Lemma planes_buffers p g k : nth_error (image_planes im w h) p = Some g -> plane_in k (map (bytes_of hp) rs) g -> 0 <= k -> (p < length rs)%nat.
Proof.
  intros E I K. destruct HV as (_ & VN & _). destruct (own_plane im w h p g HO VN E) as (_ & B & Z & R & S & W).
  destruct (Nat.ltb_spec p (length rs)) as [L|L]; [exact L|exfalso].
  unfold plane_in, buf_len in I. rewrite B, nth_overflow in I by (rewrite map_length; exact L). cbn [length] in I.
  destruct HL as [_ RA]. unfold rows_apart in RA. rewrite Forall_forall in RA. specialize (RA g (nth_error_In _ _ E)).
  pose proof (plane_row im w h p g HO E) as W2.
  assert (1 <= g_rows g /\ 1 <= g_row g).
  { rewrite R, W2. destruct HV as (_ & _ & VS). clear - Hw Hh VS. unfold plane_rows, plane_cols.
    destruct (i_pf im), p; cbn [valid_size bytes_per_pixel] in *; lia. }
  nia.
Qed.

Lemma rect_inside k : image_in k im w h (map (bytes_of hp) rs) -> 0 <= k -> image_in k im' (wide r) (high r) (map (bytes_of hp) rs').
Proof.
  intros I K. unfold image_in in *. rewrite Forall_forall in *. intros g' I'. destruct (In_nth_error _ _ I') as [p E'].
  destruct (rect_geom p g' E') as (g & E & B' & Z' & B & Z & S & R' & W' & R & W & St & RA & P1 & P2 & P3 & P4 & P5 & P6).
  specialize (I g (nth_error_In _ _ E)). pose proof (planes_buffers p g k E I K) as L.
  unfold plane_in, buf_len in *. rewrite B, nth_bytes in I. rewrite B', nth_bytes, nth_regions by exact L.
  pose proof (bytes_len hp (nth p rs (Region 0 0))) as Q1. 
  set (reg := nth p rs (Region 0 0)) in *.
  pose proof (bytes_len hp (Region (r_base reg + rect_start im w r p) (r_len reg - rect_start im w r p))) as Q2. cbn [r_len] in Q2.
  unfold zlen in Q1, Q2. rewrite Q2. rewrite Q1 in I. rewrite St, Z', S. rewrite Z in I.
  assert (1 <= g_rows g' /\ 1 <= g_row g').
  { rewrite R', W'. clear - HX HZ. unfold plane_rows, plane_cols. destruct (i_pf im), p; cbn [valid_size bytes_per_pixel] in *; lia. }
  apply Z.le_trans with (r_len reg - (plane_rows (i_pf im) p (y0 r) * g_stride g + plane_cols (i_pf im) p (x0 r))); [|lia].
  clear - I P1 P2 P3 P4 P5 P6 RA H K. nia.
Qed.

Lemma rect_rows_apart : rows_apart im' (wide r) (high r).
Proof.
  unfold rows_apart. rewrite Forall_forall. intros g' I'. destruct (In_nth_error _ _ I') as [p E'].
  destruct (rect_geom p g' E') as (g & E & B' & Z' & B & Z & S & R' & W' & R & W & St & RA & P1 & P2 & P3 & P4 & P5 & P6). lia.
Qed.

(** A byte of the rectangle is a byte of the picture. *)
Lemma rect_byte n a : in_image im' (wide r) (high r) n a ->
  in_image im w h n (rect_start im w r n + a) /\ (n < length rs)%nat.
Proof.
  intros (g' & y & j & I' & En & Hy & Hj & Ea). destruct (In_nth_error _ _ I') as [p E'].
  destruct (rect_geom p g' E') as (g & E & B' & Z' & B & Z & S & R' & W' & R & W & St & RA & P1 & P2 & P3 & P4 & P5 & P6).
  rewrite B' in En. subst n. split.
  - exists g, (plane_rows (i_pf im) p (y0 r) + y), (plane_cols (i_pf im) p (x0 r) + j).
    split; [exact (nth_error_In _ _ E)|]. split; [congruence|]. split; [lia|]. split; [lia|]. rewrite Ea, St, Z', Z, S. lia.
  - destruct HL as [I _]. unfold image_in in I. rewrite Forall_forall in I.
    exact (planes_buffers p g 0 E (I g (nth_error_In _ _ E)) (Z.le_refl 0)).
Qed.

Lemma rect_sample p g' : nth_error (image_planes im' (wide r) (high r)) p = Some g' ->
  exists g, nth_error (image_planes im w h) p = Some g /\
  forall y j, 0 <= y < g_rows g' -> 0 <= j < g_row g' ->
    sample (map (bytes_of hp) rs') g' y j =
    sample (map (bytes_of hp) rs) g (plane_rows (i_pf im) p (y0 r) + y) (plane_cols (i_pf im) p (x0 r) + j).
Proof.
  intros E'. destruct (rect_geom p g' E') as (g & E & B' & Z' & B & Z & S & R' & W' & R & W & St & RA & P1 & P2 & P3 & P4 & P5 & P6).
  exists g. split; [exact E|]. intros y j Hy Hj. destruct HL as [I _]. unfold image_in in I. rewrite Forall_forall in I.
  specialize (I g (nth_error_In _ _ E)). pose proof (planes_buffers p g 0 E I (Z.le_refl 0)) as L.
  unfold plane_in, buf_len in I. rewrite B, nth_bytes in I. set (reg := nth p rs (Region 0 0)) in *.
  pose proof (bytes_len hp reg) as Q1. unfold zlen in Q1. rewrite Q1, Z in I.
  unfold sample. rewrite B, B', !nth_bytes, nth_regions by exact L. fold reg. rewrite Z, Z', S.
  set (Y := plane_rows (i_pf im) p (y0 r)) in *. set (X := plane_cols (i_pf im) p (x0 r)) in *.
  assert (A : 0 <= y * g_stride g /\ 0 <= Y * g_stride g /\ (Y + y) * g_stride g + X + j < r_len reg).
  { clear - I Hy Hj P1 P2 P3 P4 P5 P6 RA. assert (0 <= g_stride g) by lia. split; [nia|]. split; [nia|].
    assert ((Y + y) * g_stride g <= (g_rows g - 1) * g_stride g) by nia. lia. }
  rewrite !bytes_at; cbn [r_base r_len]; rewrite ?St; [f_equal; lia|lia|lia].
Qed.

Lemma rect_nth p y j : (p < length (image_planes im w h))%nat ->
  0 <= y < plane_rows (i_pf im) p (high r) -> 0 <= j < plane_cols (i_pf im) p (wide r) ->
  sample (map (bytes_of hp) rs') (nth_plane (image_planes im' (wide r) (high r)) p) y j =
  sample (map (bytes_of hp) rs) (nth_plane (image_planes im w h) p) (plane_rows (i_pf im) p (y0 r) + y) (plane_cols (i_pf im) p (x0 r) + j).
Proof.
  intros L Hy Hj. destruct (nth_error (image_planes im w h) p) as [g|] eqn:E; [|apply nth_error_None in E; lia].
  destruct (plane_number im w h (wide r) (high r) p g E HO) as [g' E'].
  destruct (rect_geom p g' E') as (_ & _ & _ & _ & _ & _ & _ & R' & W' & _).
  destruct (rect_sample p g' E') as (g1 & E1 & F). rewrite E in E1. assert (g1 = g) by congruence. subst g1.
  unfold nth_plane. rewrite (nth_error_nth _ _ _ E), (nth_error_nth _ _ _ E'). apply F; [rewrite R'|rewrite W']; assumption.
Qed.
Lemma rect_pixel x y : 0 <= x < wide r -> 0 <= y < high r ->
  pixel im' (wide r) (high r) (map (bytes_of hp) rs') x y = pixel im w h (map (bytes_of hp) rs) (x0 r + x) (y0 r + y).
Proof.
  intros Hx Hy. pose proof rect_nth as N. 
  assert (LN : length (image_planes im w h) = match i_pf im with I444 | I422 | I420 => 3 | Nv12 => 2 | _ => 1 end%nat).
  { unfold image_planes, planes. destruct (i_pf im); try reflexivity. destruct (i_planes im =? 1); reflexivity. }
  rewrite LN in N. clear LN. unfold pixel. cbn [rect_image i_pf] in *. unfold rgb_pixel, ycc_pixel.
  set (gs' := image_planes im' (wide r) (high r)) in *. set (gs := image_planes im w h) in *.
  set (b' := map (bytes_of hp) rs') in *. set (b := map (bytes_of hp) rs) in *.
  clearbody gs' gs b' b. clear HL HV HO.
  destruct (i_pf im); cbn [is_rgb component_offsets bytes_per_pixel valid_size plane_rows plane_cols] in *;
  try (repeat apply f_equal2; rewrite N by (cbn [plane_rows plane_cols bytes_per_pixel]; lia); cbn [plane_rows plane_cols bytes_per_pixel];
    f_equal; clear; lia).
  all: repeat apply f_equal2; rewrite N by (cbn [plane_rows plane_cols bytes_per_pixel]; lia); cbn [plane_rows plane_cols bytes_per_pixel];
    f_equal; clear - H0; lia.
Qed.
Lemma rect_rgb (A A' : columns) x y : 0 <= x < wide r -> 0 <= y < high r -> A' x = A (x0 r + x) ->
  source_rgb A' im' (wide r) (high r) (map (bytes_of hp) rs') x y = source_rgb A im w h (map (bytes_of hp) rs) (x0 r + x) (y0 r + y).
Proof.
  intros Hx Hy EA. pose proof (rect_pixel x y Hx Hy) as P. unfold pixel in P. unfold source_rgb. cbn [rect_image i_pf i_cs] in *.
  destruct (is_rgb (i_pf im)); [exact P|]. rewrite P, EA. reflexivity.
Qed.
End Im.

Lemma rect_expected (A A' : columns) src dst w h sb sb' r src' dst' p y j :
  i_pf dst' = i_pf dst -> i_cs dst' = i_cs dst ->
  valid_size (i_pf dst) (wide r) (high r) -> valid_size (i_pf dst) (x0 r) (y0 r) ->
  (forall x, 0 <= x < wide r -> A' x = A (x0 r + x)) ->
  (forall x y, 0 <= x < wide r -> 0 <= y < high r ->
     source_rgb A' src' (wide r) (high r) sb' x y = source_rgb A src w h sb (x0 r + x) (y0 r + y)) ->
  0 <= y < plane_rows (i_pf dst) p (high r) -> 0 <= j < plane_cols (i_pf dst) p (wide r) ->
  expected A' src' dst' (wide r) (high r) sb' p y j =
  expected A src dst w h sb p (plane_rows (i_pf dst) p (y0 r) + y) (plane_cols (i_pf dst) p (x0 r) + j).
Proof.
  intros E1 E2 V V0 HA HS Hy Hj. unfold expected. rewrite E1, E2.
  set (px' := source_rgb A' src' (wide r) (high r) sb') in *. set (px := source_rgb A src w h sb) in *. clearbody px px'.
  assert (B : forall x y, x0 r mod 2 = 0 -> y0 r mod 2 = 0 -> 0 <= x -> 2 * x + 1 < wide r -> 0 <= y -> 2 * y + 1 < high r ->
    block_sum px' x y = block_sum px (x0 r / 2 + x) (y0 r / 2 + y)).
  { intros a b Ex Ey Ha Ha' Hb Hb'. unfold block_sum.
    replace (2 * (x0 r / 2 + a)) with (x0 r + 2 * a) by lia. replace (2 * (y0 r / 2 + b)) with (y0 r + 2 * b) by lia.
    rewrite !HS by lia. rewrite !Z.add_assoc. reflexivity. }
  destruct (i_pf dst); destruct p as [|[|p]]; cbn [bytes_per_pixel valid_size plane_rows plane_cols] in *;
  try reflexivity;
  try (rewrite HS by lia; f_equal; [f_equal; lia|lia]);
  try (rewrite HS, HA by lia; reflexivity);
  try (rewrite B, HA by lia; f_equal; f_equal; lia).
  all: replace ((x0 r + j) mod 2) with (j mod 2) by (clear - V0; lia);
    replace ((x0 r + j) / 2) with (x0 r / 2 + j / 2) by (clear - V0; lia);
    replace (2 * (x0 r / 2 + j / 2)) with (x0 r + 2 * (j / 2)) by (clear - V0; lia);
    rewrite B, HA by lia; reflexivity.
Qed.
