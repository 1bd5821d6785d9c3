(** Proofs about a picture converted in rectangles. *)
From Coq Require Import ZArith List Bool Lia ZifyBool ZifyNat.
Import ListNotations.
From Verif Require Import Base Fmt Wrappers CpuInfo Lib Sets Spec SimdSpec SetSpec ApiSpec AcceptSpec Api ResultFacts PropFacts BandSpec BandFacts Thread ThreadSpec ThreadFacts
  TraceSpec TraceRunFacts CThread CThreadSpec CThreadFacts CThreadRunFacts TileSpec TileFacts.
Open Scope Z_scope.
Ltac Zify.zify_post_hook ::= Z.div_mod_to_equations.

Section Pic.
Variables (set : instruction_set) (T : target) (hp : memory) (q : request).
Notation w := (q_w q). Notation h := (q_h q).
Hypothesis Hcall : c_call set T w h (q_src q) (q_dst q) (map (bytes_of hp) (q_from q)) (map (bytes_of hp) (q_to q)).
Hypothesis Os : own_buffers (q_src q).
Hypothesis Od : own_buffers (q_dst q).
Hypothesis Hplace : forall n a n' a', in_image (q_dst q) w h n a -> in_image (q_dst q) w h n' a' ->
  place q n a = place q n' a' -> n = n' /\ a = a'.
Hypothesis Hsource : forall r x, target_byte q x -> In r (q_from q) -> ~ inside x r.

Lemma sub_bytes lim im r rs : 0 <= lim -> buffers_ok lim (map (bytes_of hp) rs) ->
  (forall p, 0 <= rect_start im w r p) -> buffers_ok lim (map (bytes_of hp) (rect_regions im w r rs)).
Proof.
  intros L B S. unfold buffers_ok in *. rewrite Forall_forall in *. intros b I. apply in_map_iff in I. destruct I as (reg & <- & I).
  apply (In_nth _ _ (Region 0 0)) in I. destruct I as (p & Lp & <-). rewrite len_regions in Lp. rewrite nth_regions by exact Lp.
  specialize (B (bytes_of hp (nth p rs (Region 0 0))) (in_map _ _ _ (nth_In _ _ Lp))). specialize (S p).
  set (reg := nth p rs (Region 0 0)) in *. destruct B as [B1 B2].
  pose proof (bytes_len hp reg) as Q. unfold zlen in Q. rewrite Q in B1.
  pose proof (bytes_len hp (Region (r_base reg + rect_start im w r p) (r_len reg - rect_start im w r p))) as Q2. unfold zlen in Q2. cbn [r_len] in Q2.
  split; [lia|]. rewrite Forall_forall in *. intros v I. apply (In_nth _ _ 0) in I. destruct I as (k & Lk & <-).
  rewrite <- (Nat2Z.id k), bytes_at by (cbn [r_len]; lia). cbn [r_base].
  replace (r_base reg + rect_start im w r p + Z.of_nat k) with (r_base reg + (rect_start im w r p + Z.of_nat k)) by lia.
  rewrite <- bytes_at by lia. apply B2, nth_In. lia.
Qed.
Lemma start_nonneg im r hps p : own_buffers im -> valid_image im w h -> 0 < w -> laid_out im w h hps -> 0 <= x0 r -> 0 <= y0 r ->
  0 <= rect_start im w r p.
Proof.
  intros HO (_ & VN & _) W [_ R] X Y. unfold rect_start.
  pose proof (row_start_nonneg im w h (y0 r) p HO VN W R Y). pose proof (plane_cols_nonneg (i_pf im) p (x0 r) X). lia.
Qed.
Lemma len_planes im ww hh : own_buffers im -> valid_num_planes (i_pf im) (i_planes im) -> Z.of_nat (length (image_planes im ww hh)) = i_planes im.
Proof.
  intros HO V. unfold own_buffers in HO. unfold image_planes, planes. destruct (i_pf im); cbn [valid_num_planes length] in *; try lia.
  specialize (HO eq_refl). destruct (Z.eqb_spec (i_planes im) 1); [contradiction|]. cbn [length]. lia.
Qed.
Lemma over_nonneg s d ww : 0 <= over_read set s d ww.
Proof. unfold over_read. destruct set, s, (is_rgb d); try lia; destruct (_ <=? ww); lia. Qed.

Lemma rect_call r : rect_ok set hp q r ->
  let q' := rect_request q r in
  c_call set T (q_w q') (q_h q') (q_src q') (q_dst q') (map (bytes_of hp) (q_from q')) (map (bytes_of hp) (q_to q')).
Proof.
  intros (X0 & Wd & Xw & Y0 & Hi & Yh & Vs & Vd & Ps & Pd & Room) q'. unfold q', rect_request. cbn [q_w q_h q_src q_dst q_from q_to].
  destruct Hcall as (HT & (W1 & H1 & N1 & N2 & S1 & S2 & B1 & B2) & W0 & H0 & VIs & VId & Sup & E1 & E2 & L1 & L2 & R & I1 & I2).
  assert (HX : 0 <= x0 r /\ 0 < wide r /\ x0 r + wide r <= w /\ 0 <= y0 r /\ 0 < high r /\ y0 r + high r <= h) by lia.
  assert (U : 0 <= usz T / 2 - 1 /\ usz T / 2 - 1 < usz T) by (clear - HT; destruct HT as [[-> _] | [-> _]]; vm_compute; split; congruence).
  assert (ST : forall im b, stride_in (fun _ => usz T / 2 - 1) im w h -> laid_out im w h b -> own_buffers im -> valid_image im w h ->
    strides_below (usz T) (rect_image im w h) /\ stride_in (fun _ => usz T / 2 - 1) (rect_image im w h) (wide r) (high r)).
  { intros im b SI [_ RA] HO VI. unfold stride_in in *. rewrite Forall_forall in *. unfold rows_apart in RA. pose proof RA as RA'. rewrite Forall_forall in RA.
    assert (K : forall g, In g (image_planes im w h) -> 0 <= g_stride g <= usz T / 2 - 1 /\ g_base g = 0).
    { intros g I. destruct (In_nth_error _ _ I) as [p E]. specialize (SI g I). specialize (RA g I). destruct VI as (_ & VN & _).
      destruct (own_plane im w h p g HO VN E) as (_ & _ & Z & _). pose proof (plane_row im w h p g HO E) as Wg.
      pose proof (plane_cols_nonneg (i_pf im) p w ltac:(lia)). lia. }
    split.
    - unfold strides_below. cbn [rect_image i_strides]. rewrite Forall_forall. intros s I. apply in_map_iff in I. destruct I as (g & <- & I).
      specialize (K g I). lia.
    - intros g' I'. destruct (In_nth_error _ _ I') as [p E']. destruct (plane_number_back im w h _ _ p g' E' HO) as [g E].
      assert (Z' : g_base g' = 0).
      { destruct VI as (_ & VN & _). exact (proj1 (proj2 (proj2 (own_plane (rect_image im w h) _ _ p g' HO VN E')))). }
      rewrite Z', (rect_plane im w h _ _ p g g' HO W0 (proj2 (proj2 VI)) RA' E E'). specialize (K g (nth_error_In _ _ E)). lia. }
  destruct (ST _ _ I1 L1 Os VIs) as [SB1 SI1]. destruct (ST _ _ I2 L2 Od VId) as [SB2 SI2].
  assert (VI : forall im, valid_image im w h -> valid_size (i_pf im) (wide r) (high r) -> valid_image (rect_image im w h) (wide r) (high r)).
  { intros im (A & B & _) V. split; [exact A|]. split; [exact B|exact V]. }
  assert (EP : forall im rs, own_buffers im -> valid_image im w h -> enough_planes im (map (bytes_of hp) rs) ->
    enough_planes (rect_image im w h) (map (bytes_of hp) (rect_regions im w r rs))).
  { intros im rs HO (_ & VN & _) [A _]. split; cbn [rect_image i_planes i_strides].
    - rewrite map_length in *. rewrite len_regions. exact A.
    - rewrite map_length, (len_planes im w h HO VN). lia. }
  assert (LO : forall im rs, own_buffers im -> valid_image im w h -> laid_out im w h (map (bytes_of hp) rs) ->
    valid_size (i_pf im) (wide r) (high r) -> valid_size (i_pf im) (x0 r) (y0 r) ->
    laid_out (rect_image im w h) (wide r) (high r) (map (bytes_of hp) (rect_regions im w r rs))).
  { intros im rs HO V L Z1 Z2. split.
    - apply (rect_inside im w h r hp rs); try assumption; [exact (proj1 L)|lia].
    - apply (rect_rows_apart im w h r hp rs); assumption. }
  split; [exact HT|]. split.
  { split; [lia|]. split; [lia|]. split; [exact N1|]. split; [exact N2|]. split; [exact SB1|]. split; [exact SB2|].
    split; (apply sub_bytes; [lia|assumption|]); intros p; (eapply start_nonneg; [| | |eassumption| |]; try assumption; lia). }
  split; [lia|]. split; [lia|]. split; [apply VI; assumption|]. split; [apply VI; assumption|]. split; [exact Sup|].
  split; [apply EP; assumption|]. split; [apply EP; assumption|].
  split; [apply LO; assumption|]. split; [apply LO; assumption|].
  split; [|split; assumption].
  unfold room. cbn [rect_image i_pf]. apply (rect_inside (q_src q) w h r hp (q_from q)); try assumption. apply over_nonneg.
Qed.

(** The bytes of a rectangle are bytes of the picture. *)
Lemma rect_place r n a : rect_ok set hp q r -> let q' := rect_request q r in
  in_image (q_dst q') (q_w q') (q_h q') n a ->
  in_image (q_dst q) w h n (rect_start (q_dst q) w r n + a) /\ place q' n a = place q n (rect_start (q_dst q) w r n + a).
Proof.
  intros (X0 & Wd & Xw & Y0 & Hi & Yh & Vs & Vd & Ps & Pd & Room) q' I. unfold q', rect_request in *. cbn [q_w q_h q_src q_dst q_from q_to] in *.
  destruct Hcall as (HT & _ & W0 & H0 & VIs & VId & Sup & E1 & E2 & L1 & L2 & _).
  destruct (rect_byte (q_dst q) w h r hp (q_to q) Od VId W0 H0 L2 ltac:(lia) Pd n a I) as [I' L].
  split; [exact I'|]. unfold place. cbn [q_to]. rewrite nth_regions by exact L. cbn [r_base]. lia.
Qed.
Lemma rect_target r x : rect_ok set hp q r -> target_byte (rect_request q r) x -> target_byte q x.
Proof.
  intros R (n & a & I & ->). destruct (rect_place r n a R I) as [I' E]. exists n, (rect_start (q_dst q) w r n + a). split; [exact I'|exact E].
Qed.

Lemma rect_in_region im r rs reg x : own_buffers im -> valid_image im w h -> 0 < w -> laid_out im w h (map (bytes_of hp) rs) -> 0 <= x0 r -> 0 <= y0 r ->
  In reg (rect_regions im w r rs) -> inside x reg -> exists reg', In reg' rs /\ inside x reg'.
Proof.
  intros HO V W L X Y I Ix. apply (In_nth _ _ (Region 0 0)) in I. destruct I as (p & Lp & <-). rewrite len_regions in Lp.
  exists (nth p rs (Region 0 0)). split; [apply nth_In, Lp|]. rewrite nth_regions in Ix by exact Lp.
  pose proof (start_nonneg im r _ p HO V W L X Y). unfold inside in *. cbn [r_base r_len] in Ix. lia.
Qed.

(** Two bytes of a plane at the same place are in the same row and column. *)
Lemma same_spot s row y j y' j' : 0 <= j < row -> 0 <= j' < row -> row <= s -> y * s + j = y' * s + j' -> y = y' /\ j = j'.
Proof. intros. assert (y = y') by nia. subst y'. lia. Qed.

Lemma rect_bytes_apart r r' n a a' : rect_ok set hp q r -> rect_ok set hp q r' ->
  (forall x y, in_rect r x y -> in_rect r' x y -> False) ->
  in_image (q_dst (rect_request q r)) (wide r) (high r) n a -> in_image (q_dst (rect_request q r')) (wide r') (high r') n a' ->
  rect_start (q_dst q) w r n + a = rect_start (q_dst q) w r' n + a' -> False.
Proof.
  intros (X0 & Wd & Xw & Y0 & Hi & Yh & Vs & Vd & Ps & Pd & Room) (X0' & Wd' & Xw' & Y0' & Hi' & Yh' & Vs' & Vd' & Ps' & Pd' & Room') AP
    (g1 & y & j & I1 & E1 & Hy & Hj & Ea) (g2 & y' & j' & I2 & E2 & Hy' & Hj' & Ea') EQ.
  unfold rect_request in *. cbn [q_w q_h q_src q_dst q_from q_to] in *.
  destruct Hcall as (HT & _ & W0 & H0 & VIs & VId & Sup & _ & _ & L1 & L2 & _).
  destruct (In_nth_error _ _ I1) as [p Ep]. destruct (In_nth_error _ _ I2) as [p' Ep'].
  destruct (rect_geom (q_dst q) w h r hp (q_to q) Od VId W0 L2 ltac:(lia) Pd p g1 Ep)
    as (g & G & B1 & Z1 & B & Z & S & R1 & W1 & R & W & St & RA & P1 & P2 & P3 & P4 & P5 & P6).
  destruct (rect_geom (q_dst q) w h r' hp (q_to q) Od VId W0 L2 ltac:(lia) Pd' p' g2 Ep')
    as (g' & G' & B1' & Z1' & B' & Z' & S' & R1' & W1' & R' & W' & St' & RA' & P1' & P2' & P3' & P4' & P5' & P6').
  rewrite B1 in E1. rewrite B1' in E2. rewrite E1 in E2. subst p'. assert (g' = g) by congruence. subst g'. rewrite E1 in EQ. clear E1.
  rewrite St, St', Ea, Ea', Z1, Z1', S, S' in EQ.
  destruct (same_spot (g_stride g) (g_row g) (plane_rows (i_pf (q_dst q)) p (y0 r) + y) (plane_cols (i_pf (q_dst q)) p (x0 r) + j)
     (plane_rows (i_pf (q_dst q)) p (y0 r') + y') (plane_cols (i_pf (q_dst q)) p (x0 r') + j')) as [Q1 Q2]; [lia|lia|lia|lia|].
  apply (AP (Z.max (x0 r) (x0 r')) (Z.max (y0 r) (y0 r'))); unfold in_rect;
    rewrite R1, W1, R1', W1' in *; clear - Q1 Q2 Hy Hj Hy' Hj' Vd Vd' Pd Pd' Wd Wd' Hi Hi';
    unfold plane_rows, plane_cols in *; destruct (i_pf (q_dst q)), p; cbn [valid_size bytes_per_pixel] in *; lia.
Qed.

Lemma rects_calls rs : (forall r, In r rs -> rect_ok set hp q r) -> rects_apart rs -> calls_ok set T hp (map (rect_request q) rs).
Proof.
  intros HR AP. pose proof Hcall as (_ & _ & W0 & _ & VIs & _ & _ & _ & _ & L1 & _).
  split; [|split].
  - intros q' I. apply in_map_iff in I. destruct I as (r & <- & I). specialize (HR r I). split; [exact (rect_call r HR)|].
    intros n a n' a' Ia Ia' E. destruct (rect_place r n a HR Ia) as [J K]. destruct (rect_place r n' a' HR Ia') as [J' K'].
    rewrite K, K' in E. destruct (Hplace _ _ _ _ J J' E) as [-> E2]. split; [reflexivity|lia].
  - intros q1 q2 reg x I1 I2 B Ir Ix. apply in_map_iff in I1, I2. destruct I1 as (r1 & <- & I1), I2 as (r2 & <- & I2).
    pose proof (HR r2 I2) as (X0 & _ & _ & Y0 & _).
    destruct (rect_in_region (q_src q) r2 (q_from q) reg x Os VIs W0 L1 X0 Y0 Ir Ix) as (reg' & J & K).
    exact (Hsource reg' x (rect_target r1 x (HR r1 I1) B) J K).
  - intros t u q1 q2 x E1 E2 Ne (n & a & Ia & Ea) (n' & a' & Ia' & Ea').
    rewrite nth_error_map in E1, E2. destruct (nth_error rs t) as [r1|] eqn:N1; [|discriminate E1]. destruct (nth_error rs u) as [r2|] eqn:N2; [|discriminate E2].
    cbn [option_map] in E1, E2. assert (q1 = rect_request q r1) by congruence. assert (q2 = rect_request q r2) by congruence. subst q1 q2.
    pose proof (HR r1 (nth_error_In _ _ N1)) as R1. pose proof (HR r2 (nth_error_In _ _ N2)) as R2.
    destruct (rect_place r1 n a R1 Ia) as [J K]. destruct (rect_place r2 n' a' R2 Ia') as [J' K'].
    rewrite K in Ea. rewrite K' in Ea'. destruct (Hplace _ _ _ _ J J' ltac:(congruence)) as [<- E].
    refine (rect_bytes_apart r1 r2 n a a' R1 R2 _ Ia Ia' E). intros x1 y1. exact (AP t u r1 r2 x1 y1 N1 N2 Ne).
Qed.

(** What a rectangle's call writes is what the call of the picture writes. *)
Lemma rect_alone r n a v : rect_ok set hp q r -> same_columns set q r ->
  in_image (q_dst (rect_request q r)) (wide r) (high r) n a ->
  alone_byte set T hp (rect_request q r) n a v -> alone_byte set T hp q n (rect_start (q_dst q) w r n + a) v.
Proof.
  intros RK SC I (after' & Ec' & Ev). pose proof (rect_call r RK) as RC. cbv zeta in RC.
  destruct (c_call_runs _ _ _ _ _ _ _ _ None RC) as (after1 & E1 & V1). rewrite E1 in Ec'. assert (after' = after1) by congruence. subst after1. clear E1.
  destruct (c_call_runs _ _ _ _ _ _ _ _ None Hcall) as (after & E & V). exists after. split; [exact E|]. rewrite Ev.
  destruct RK as (X0 & Wd & Xw & Y0 & Hi & Yh & Vs & Vd & Ps & Pd & Room).
  unfold rect_request in *. cbn [q_w q_h q_src q_dst q_from q_to] in *.
  destruct Hcall as (HT & _ & W0 & H0 & VIs & VId & Sup & _ & _ & L1 & L2 & _).
  destruct I as (g1 & y & j & I1 & En & Hy & Hj & Ea). destruct (In_nth_error _ _ I1) as [p Ep].
  destruct (rect_geom (q_dst q) w h r hp (q_to q) Od VId W0 L2 ltac:(lia) Pd p g1 Ep)
    as (g & G & B1 & Z1 & B & Z & S & R1 & W1 & R & W & St & RA & P1 & P2 & P3 & P4 & P5 & P6).
  rewrite B1 in En. subst n.
  destruct V1 as (_ & V1 & _). specialize (V1 p g1 Ep y j Hy Hj). destruct V as (_ & V & _).
  specialize (V p g G (plane_rows (i_pf (q_dst q)) p (y0 r) + y) (plane_cols (i_pf (q_dst q)) p (x0 r) + j) ltac:(lia) ltac:(lia)).
  rewrite R1 in Hy. rewrite W1 in Hj. cbn [rect_image i_pf] in V1.
  rewrite (rect_expected (set_cols set (i_pf (q_src q)) (i_pf (q_dst q)) w) (set_cols set (i_pf (q_src q)) (i_pf (q_dst q)) (wide r)) (q_src q) (q_dst q) w h
    (map (bytes_of hp) (q_from q)) (map (bytes_of hp) (rect_regions (q_src q) w r (q_from q))) r (rect_image (q_src q) w h) (rect_image (q_dst q) w h)
    p y j eq_refl eq_refl Vd Pd) in V1; [|intros x Hx; symmetry; apply SC, Hx| |exact Hy|exact Hj].
  - rewrite <- V in V1. unfold sample in V1. rewrite B, B1, Z, Z1, S in V1. rewrite Ea, Z1, S, St. rewrite V1.
    f_equal. f_equal. lia.
  - intros x1 y1 Hx1 Hy1. apply (rect_rgb (q_src q) w h r hp (q_from q)); try assumption; [lia|]. symmetry. apply SC, Hx1.
Qed.

(** Every byte of the picture is in the rectangle of one of its pixels. *)
Lemma covered_byte rs n a : (forall r, In r rs -> rect_ok set hp q r) -> rects_cover w h rs -> in_image (q_dst q) w h n a ->
  exists r a', In r rs /\ in_image (q_dst (rect_request q r)) (wide r) (high r) n a' /\ a = rect_start (q_dst q) w r n + a'.
Proof.
  intros HR C (g & y & j & I & En & Hy & Hj & Ea). destruct (In_nth_error _ _ I) as [p G].
  destruct Hcall as (HT & _ & W0 & H0 & VIs & VId & Sup & _ & _ & L1 & L2 & _).
  pose proof VId as (_ & VN & VZ).
  destruct (own_plane (q_dst q) w h p g Od VN G) as (_ & B & Z & R & _ & _). pose proof (plane_row (q_dst q) w h p g Od G) as W.
  assert (P : exists px py, 0 <= px < w /\ 0 <= py < h /\
    forall r, rect_ok set hp q r -> in_rect r px py ->
      plane_cols (i_pf (q_dst q)) p (x0 r) <= j < plane_cols (i_pf (q_dst q)) p (x0 r) + plane_cols (i_pf (q_dst q)) p (wide r) /\
      plane_rows (i_pf (q_dst q)) p (y0 r) <= y < plane_rows (i_pf (q_dst q)) p (y0 r) + plane_rows (i_pf (q_dst q)) p (high r)).
  { exists (match i_pf (q_dst q), p with (Argb | Bgra | Rgba | Bgr | Rgb), _ => j / bytes_per_pixel (i_pf (q_dst q)) | (I422 | I420), S _ => 2 * j | _, _ => j end),
      (match i_pf (q_dst q), p with I420, S _ | Nv12, S _ => 2 * y | _, _ => y end).
    rewrite R in Hy. rewrite W in Hj. clear - Hy Hj VZ W0 H0. unfold rect_ok, in_rect. unfold plane_rows, plane_cols in *.
    destruct (i_pf (q_dst q)), p; cbn [valid_size bytes_per_pixel] in *;
      (split; [lia|]; split; [lia|]; intros r (_ & _ & _ & _ & _ & _ & _ & Vd & _ & Pd & _) HI; lia). }
  destruct P as (px & py & Hpx & Hpy & P). destruct (C px py Hpx Hpy) as (r & Ir & Hr). specialize (HR r Ir). destruct (P r HR Hr) as [Pj Py].
  pose proof HR as (X0 & Wd & Xw & Y0 & Hi & Yh & Vs & Vd & Ps & Pd & Room).
  destruct (plane_number (q_dst q) w h (wide r) (high r) p g G Od) as [g' G'].
  destruct (rect_geom (q_dst q) w h r hp (q_to q) Od VId W0 L2 ltac:(lia) Pd p g' G')
    as (g0 & G0 & B1 & Z1 & B0 & Z0 & S & R1 & W1 & R0 & W0' & St & RA & P1 & P2 & P3 & P4 & P5 & P6).
  assert (g0 = g) by congruence. subst g0. rewrite B in En. subst n.
  exists r, ((y - plane_rows (i_pf (q_dst q)) p (y0 r)) * g_stride g + (j - plane_cols (i_pf (q_dst q)) p (x0 r))).
  split; [exact Ir|]. split.
  - exists g', (y - plane_rows (i_pf (q_dst q)) p (y0 r)), (j - plane_cols (i_pf (q_dst q)) p (x0 r)).
    split; [exact (nth_error_In _ _ G')|]. split; [congruence|]. split; [lia|]. split; [lia|]. rewrite Z1, S. lia.
  - rewrite St, Ea, Z. lia.
Qed.

Lemma picture_in_rects rs schedule : (forall r, In r rs -> rect_ok set hp q r /\ same_columns set q r) -> rects_apart rs -> rects_cover w h rs ->
  let st := c_interleave T schedule (c_start set hp (map (rect_request q) rs)) in
  (forall th, In th (snd st) -> exists a, th = Returned a) ->
  (forall th, In th (snd st) -> th = Returned (C_Ok, None)) /\
  (forall n a, in_image (q_dst q) w h n a -> alone_byte set T hp q n a (fst st (place q n a))) /\
  (forall x, ~ target_byte q x -> fst st x = hp x).
Proof.
  intros HR AP C st Fin. assert (HR1 : forall r, In r rs -> rect_ok set hp q r) by (intros r I; apply HR, I).
  pose proof (rects_calls rs HR1 AP) as OK.
  assert (K : forall t r, nth_error rs t = Some r -> exists th, nth_error (snd st) t = Some th /\ th = Returned (C_Ok, None) /\
    forall n x, in_image (q_dst (rect_request q r)) (wide r) (high r) n x -> alone_byte set T hp (rect_request q r) n x (fst st (place (rect_request q r) n x))).
  { intros t r E. pose proof (c_undisturbed set T hp _ OK schedule t (rect_request q r)) as U. rewrite nth_error_map, E in U. specialize (U eq_refl). fold st in U.
    destruct (nth_error (snd st) t) as [th|] eqn:Et; [|contradiction]. exists th. split; [reflexivity|].
    destruct (Fin th (nth_error_In _ _ Et)) as [a ->]. destruct U as [-> U]. split; [reflexivity|exact U]. }
  split; [|split].
  - intros th I. destruct (In_nth_error _ _ I) as [t Et]. destruct (threads_known set T hp _ OK schedule t th Et) as (q' & Eq & _).
    rewrite nth_error_map in Eq. destruct (nth_error rs t) as [r|] eqn:Er; [|discriminate Eq].
    destruct (K t r Er) as (th' & Et' & -> & _). congruence.
  - intros n a I. destruct (covered_byte rs n a HR1 C I) as (r & a' & Ir & Ia & ->). destruct (In_nth_error _ _ Ir) as [t Et].
    destruct (K t r Et) as (_ & _ & _ & A). specialize (A n a' Ia).
    destruct (rect_place r n a' (HR1 r Ir) Ia) as [_ <-]. exact (rect_alone r n a' _ (HR1 r Ir) (proj2 (HR r Ir)) Ia A).
  - intros x N. apply (c_elsewhere set T hp _ OK). intros q' I. apply in_map_iff in I. destruct I as (r & <- & I). intros B. exact (N (rect_target r x (HR1 r I) B)).
Qed.
End Pic.

Lemma one_call set T hp q : calls_ok set T hp [q] ->
  c_call set T (q_w q) (q_h q) (q_src q) (q_dst q) (map (bytes_of hp) (q_from q)) (map (bytes_of hp) (q_to q)) /\
  (forall n a n' a', in_image (q_dst q) (q_w q) (q_h q) n a -> in_image (q_dst q) (q_w q) (q_h q) n' a' ->
    place q n a = place q n' a' -> n = n' /\ a = a') /\
  (forall r x, target_byte q x -> In r (q_from q) -> ~ inside x r).
Proof.
  intros (H1 & H2 & _). destruct (H1 q (or_introl eq_refl)) as [A B]. split; [exact A|]. split; [exact B|].
  intros r x. exact (H2 q q r x (or_introl eq_refl) (or_introl eq_refl)).
Qed.
Lemma tiles_may_run set T hp q rs : calls_ok set T hp [q] -> own_buffers (q_src q) -> own_buffers (q_dst q) ->
  (forall r, In r rs -> rect_ok set hp q r) -> rects_apart rs -> calls_ok set T hp (map (rect_request q) rs).
Proof. intros H Os Od. destruct (one_call _ _ _ _ H) as (A & B & C). apply rects_calls; assumption. Qed.
Lemma tiles_picture set T hp q rs schedule : calls_ok set T hp [q] -> own_buffers (q_src q) -> own_buffers (q_dst q) ->
  (forall r, In r rs -> rect_ok set hp q r /\ same_columns set q r) -> rects_apart rs -> rects_cover (q_w q) (q_h q) rs ->
  let st := c_interleave T schedule (c_start set hp (map (rect_request q) rs)) in
  (forall th, In th (snd st) -> exists a, th = Returned a) ->
  (forall th, In th (snd st) -> th = Returned (C_Ok, None)) /\
  (forall n a, in_image (q_dst q) (q_w q) (q_h q) n a -> alone_byte set T hp q n a (fst st (place q n a))) /\
  (forall x, ~ target_byte q x -> fst st x = hp x).
Proof. intros H Os Od. destruct (one_call _ _ _ _ H) as (A & B & C). apply picture_in_rects; assumption. Qed.
