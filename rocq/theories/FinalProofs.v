(** From the converters to [convert_image]: final memory, arguments of callers,
    images that fit. *)
From Coq Require Import ZArith List Bool Lia ZifyBool ZifyNat.
Import ListNotations.
From Verif Require Import Base Exec Area Fmt Common Scalar Wrappers Lib Spec ApiSpec Api PixelFacts
  KernelBase WrapperFacts ConvProofs LibFacts ApiProofs.
Open Scope Z_scope.
Ltac Zify.zify_post_hook ::= Z.div_mod_to_equations.

(** ** Final memory *)

Lemma in_areas_from val p gs wr :
  in_areas (areas_from val p gs) wr <->
  exists i g, nth_error gs i = Some g /\
    in_area (Area (g_buf g) (g_base g) (g_stride g) (g_rows g) (g_row g) (val (p + i)%nat)) wr.
Proof.
  revert p. induction gs as [|g gs IH]; intros p; cbn [areas_from in_areas].
  - unfold wempty. split; [tauto|]. intros (i & g & E & _). destruct i; discriminate.
  - unfold wunion. rewrite IH. split.
    + intros [H|(i & g' & E & H)].
      * exists 0%nat, g. rewrite Nat.add_0_r. auto.
      * exists (S i), g'. rewrite Nat.add_succ_r. auto.
    + intros (i & g' & E & H). destruct i as [|i]; cbn in E.
      * injection E as <-. rewrite Nat.add_0_r in H. auto.
      * right. exists i, g'. rewrite Nat.add_succ_r in H. auto.
Qed.

(** Different planes of an image do not overlap. *)
Definition planes_disjoint (gs : list geom) : Prop :=
  forall i i' g g' y j y' j', nth_error gs i = Some g -> nth_error gs i' = Some g' ->
  0 <= y < g_rows g -> 0 <= j < g_row g -> 0 <= y' < g_rows g' -> 0 <= j' < g_row g' ->
  g_buf g = g_buf g' -> g_base g + y * g_stride g + j = g_base g' + y' * g_stride g' + j' ->
  i = i'.

Ltac plane_index E i :=
  destruct i as [|[|[|i]]]; cbn [nth_error] in E;
  try (destruct i; discriminate E); try discriminate E; try (injection E as <-).

Lemma image_planes_disjoint im w h :
  0 <= h -> rows_apart im w h ->
  (i_pf im = Nv12 -> i_planes im = 1 -> 0 <= eff_stride (i_strides im) 0 w) ->
  planes_disjoint (image_planes im w h).
Proof.
  intros Hh Hr Hst i i' g g' y j y' j' E E' Hy Hj Hy' Hj' Hb Hp.
  unfold rows_apart in Hr. rewrite Forall_forall in Hr.
  assert (R := Hr g (nth_error_In _ _ E)). assert (R' := Hr g' (nth_error_In _ _ E')).
  clear Hr. unfold image_planes, planes in *.
  destruct (i_pf im) eqn:Pf;
    try (plane_index E i; plane_index E' i'; try reflexivity; discriminate Hb).
  destruct (Z.eqb_spec (i_planes im) 1) as [E1|E1].
  - specialize (Hst eq_refl E1).
    set (s := eff_stride (i_strides im) 0 w) in *. clearbody s.
    plane_index E i; plane_index E' i'; try reflexivity;
      cbn [g_base g_row g_rows g_stride g_buf] in *; exfalso; nia.
  - plane_index E i; plane_index E' i'; try reflexivity; discriminate Hb.
Qed.

Lemma planes_nonneg im w h g : 0 <= w -> 0 <= h ->
  (i_pf im = Nv12 -> i_planes im = 1 -> 0 <= eff_stride (i_strides im) 0 w) ->
  In g (image_planes im w h) -> 0 <= g_base g /\ 0 <= g_row g /\ 0 <= g_rows g.
Proof.
  intros Hw Hh Hst. unfold image_planes, planes.
  destruct (i_pf im) eqn:Pf; try (destruct (Z.eqb_spec (i_planes im) 1) as [E1|E1];
    [specialize (Hst eq_refl E1); assert (0 <= eff_stride (i_strides im) 0 w * h) by (apply Z.mul_nonneg_nonneg; lia)|]);
    cbn [In]; intros Hg; repeat (destruct Hg as [Hg|Hg]; [subst g; cbn [g_base g_row g_rows bytes_per_pixel]; lia|]);
    destruct Hg.
Qed.

Lemma converted_of_runs T A src dst w h ms ds0 c :
  0 <= w -> 0 <= h ->
  (forall g, In g (image_planes dst w h) -> 0 <= g_stride g) ->
  rows_apart dst w h -> image_in 0 dst w h ds0 ->
  runs T ms (map (@length Z) ds0) c (in_areas (image_areas A src dst w h ms)) true ->
  exists after, c T (Mem ms ds0) = Ok true (Mem ms after) /\ converted A src dst w h ms ds0 after.
Proof.
  intros Hw Hh Hst Hra Hin Hruns.
  assert (Hst' : i_pf dst = Nv12 -> i_planes dst = 1 -> 0 <= eff_stride (i_strides dst) 0 w).
  { intros E1 E2. apply (Hst (Geom 0 0 (eff_stride (i_strides dst) 0 w) h w)).
    unfold image_planes, planes. rewrite E1, E2. left. reflexivity. }
  pose proof (image_planes_disjoint dst w h Hh Hra Hst') as Hdis.
  pose proof (fun g => planes_nonneg dst w h g Hw Hh Hst') as Hnn.
  unfold image_in, rows_apart in *. rewrite Forall_forall in Hin, Hra.
  unfold image_areas in Hruns.
  set (gs := image_planes dst w h) in *.
  set (val := expected A src dst w h ms) in *.
  assert (Hpos : forall g y j, In g gs -> 0 <= y < g_rows g -> 0 <= j < g_row g ->
    0 <= g_base g + y * g_stride g + j < buf_len ds0 (g_buf g)).
  { intros g y j Hg Hy Hj. destruct (Hnn g Hg) as (N1 & N2 & N3). specialize (Hst g Hg).
    specialize (Hin g Hg). unfold plane_in in Hin. nia. }
  assert (Hbound : forall n a x, in_areas (areas_from val 0 gs) (n, a, x) -> in_dst (map (@length Z) ds0) n a).
  { intros n a x H. apply in_areas_from in H. destruct H as (i & g & E & y & j & Hy & Hj & Ew).
    cbn [a_buf a_base a_stride a_val a_rows a_cols] in *. injection Ew as -> -> ->.
    specialize (Hpos g y j (nth_error_In _ _ E) Hy Hj). unfold in_dst, buf_len in *.
    change 0%nat with (@length Z []). rewrite map_nth. exact Hpos. }
  destruct (runs_final T ms (map (@length Z) ds0) c _ true (Mem ms ds0) Hruns) as (m' & Ec & Hsh & Hfin); auto.
  { split; reflexivity. }
  destruct m' as [ms' after]. destruct Hsh as [Hs1 Hs2]. cbn [srcs dsts] in Hs1, Hs2. subst ms'.
  exists after. split; [exact Ec|].
  unfold converted. split; [exact Hs2|]. split.
  - intros p g E y j Hy Hj. fold gs in E.
    specialize (Hpos g y j (nth_error_In _ _ E) Hy Hj).
    assert (HP : in_areas (areas_from val 0 gs) (g_buf g, g_base g + y * g_stride g + j, val p y j)).
    { apply in_areas_from. exists p, g. split; [exact E|]. exists y, j. cbn. auto. }
    destruct (Hfin (g_buf g) (g_base g + y * g_stride g + j) ltac:(lia)) as [[_ Hno]|Hyes].
    { destruct (Hno _ HP). }
    apply in_areas_from in Hyes. destruct Hyes as (i' & g' & E' & y' & j' & Hy' & Hj' & Ew).
    cbn [a_buf a_base a_stride a_val a_rows a_cols] in *.
    injection Ew as Ew1 Ew2 Ew3.
    assert (p = i') by (apply (Hdis p i' g g' y j y' j'); auto; lia). subst i'.
    assert (g' = g) by congruence. subst g'.
    assert (Hlt := Hra g (nth_error_In _ _ E)).
    assert (y = y') by nia. subst y'. assert (j = j') by lia. subst j'.
    unfold sample, dbyte in *. cbn [dsts] in *. exact Ew3.
  - intros n a Ha Hno.
    destruct (Hfin n a ltac:(lia)) as [[E _]|Hyes].
    + unfold dbyte in E. cbn [dsts] in E. exact E.
    + exfalso. apply Hno. apply in_areas_from in Hyes.
      destruct Hyes as (i & g & E & y & j & Hy & Hj & Ew).
      cbn [a_buf a_base a_stride a_val a_rows a_cols] in *. injection Ew as -> -> _.
      exists g, y, j. repeat split; auto; try lia. eapply nth_error_In; eauto.
Qed.

(** ** Arguments of Rust and C callers *)

Lemma nth_error_nth_some {X} (l : list X) i d : (i < length l)%nat -> nth_error l i = Some (nth i l d).
Proof. intros H. apply nth_error_nth'. exact H. Qed.

Lemma strides_view_some T a l n : n <= zlen l -> n <= alen a -> adata a = l ->
  Forall (fun s => 0 <= s < usz T) l -> strides_view T a (Some l) n.
Proof.
  intros Hn Ha Hd Hl i Hi. unfold zlen in *. exists (nth i l 0). split; [|split].
  - unfold has. rewrite Hd, Nat2Z.id. split; [lia|]. apply nth_error_nth_some. lia.
  - rewrite Forall_forall in Hl. apply Hl. apply nth_In. lia.
  - intros row. reflexivity.
Qed.

Lemma strides_view_default T n : is_target T -> n <= 4 -> strides_view T (arr_of DEFAULT_STRIDES) None n.
Proof.
  intros HT Hn i Hi. exists 0. split; [|split].
  - unfold has, arr_of. cbn [alen adata]. rewrite Nat2Z.id. split; [cbn; lia|].
    destruct i as [|[|[|[|i]]]]; try reflexivity. lia.
  - unfold usz_range. destruct HT as [[-> _]|[-> _]]; lia.
  - intros row. reflexivity.
Qed.

Lemma valid_planes_le pf n : valid_num_planes pf n -> 1 <= n <= 3.
Proof. destruct pf; cbn [valid_num_planes]; lia. Qed.

Lemma strides_view_rust T im bufs : is_target T ->
  valid_num_planes (i_pf im) (i_planes im) -> enough_planes im bufs -> strides_below (usz T) im ->
  strides_view T (strides_or_default (option_map arr_of (i_strides im))) (i_strides im) (i_planes im).
Proof.
  intros HT Hv (Hn & Hs) Hb. apply valid_planes_le in Hv. unfold strides_below in Hb.
  destruct (i_strides im) as [l|]; cbn [option_map strides_or_default].
  - apply strides_view_some with (l := l); auto.
  - apply strides_view_default; auto; lia.
Qed.

Lemma nth_error_slices mk k bufs i : (i < length bufs)%nat ->
  nth_error (slices_from mk k bufs) i = Some (Slice (mk (k + i)%nat) 0 (buf_len bufs i)).
Proof.
  revert k i. induction bufs as [|b bufs IH]; intros k i Hi; cbn [length] in Hi; [lia|].
  destruct i as [|i]; cbn [slices_from nth_error].
  - rewrite Nat.add_0_r. reflexivity.
  - rewrite IH by lia. rewrite Nat.add_succ_r. reflexivity.
Qed.
Lemma slices_length mk k bufs : length (slices_from mk k bufs) = length bufs.
Proof. revert k; induction bufs; intros k; cbn; auto. Qed.

Lemma buffers_len lim bufs i : 0 <= lim -> buffers_ok lim bufs -> buf_len bufs i <= lim.
Proof.
  intros Hl H. unfold buf_len. destruct (Nat.lt_ge_cases i (length bufs)) as [Hi|Hi].
  - unfold buffers_ok in H. rewrite Forall_forall in H. apply H. apply nth_In. auto.
  - rewrite nth_overflow by auto. cbn. lia.
Qed.

Lemma buffers_bytes lim bufs : buffers_ok lim bufs -> bytes_ok bufs.
Proof.
  intros H n i. unfold is_byte. unfold buffers_ok in H. rewrite Forall_forall in H.
  destruct (Nat.lt_ge_cases n (length bufs)) as [Hn|Hn].
  - destruct (H _ (nth_In bufs [] Hn)) as [_ Hb]. rewrite Forall_forall in Hb.
    destruct (Nat.lt_ge_cases i (length (nth n bufs []))) as [Hi|Hi].
    + apply Hb. apply nth_In. auto.
    + rewrite nth_overflow with (n := i) by auto. lia.
  - rewrite (nth_overflow bufs) by auto. destruct i; cbn; lia.
Qed.

Lemma buffers_ok_le a b bufs : a <= b -> buffers_ok a bufs -> buffers_ok b bufs.
Proof. intros H. apply Forall_impl. intros x [? ?]. split; [lia|auto]. Qed.

Lemma slices_view_rust T mk bufs n : is_target T -> n <= Z.of_nat (length bufs) ->
  buffers_ok (isize_max T + 8) bufs ->
  slices_view T (arr_of (rust_slices mk bufs)) mk bufs (buf_len bufs) n.
Proof.
  intros HT Hn Hb i Hi. pose proof (isize_usz T HT).
  pose proof (buffers_len (isize_max T + 8) bufs i ltac:(lia) Hb).
  unfold has, arr_of, rust_slices. cbn [alen adata]. unfold zlen.
  rewrite slices_length, Nat2Z.id, nth_error_slices by lia.
  repeat split; try lia. 
Qed.

(** ** Where images fit *)

Lemma eff_stride_nonneg T im i row : is_target T -> strides_below (usz T) im -> 0 <= row -> 0 <= eff_stride (i_strides im) i row.
Proof.
  intros HT Hs Hr. unfold strides_below, eff_stride in *. destruct (i_strides im) as [l|]; auto.
  destruct (nth i l 0 =? 0); auto.
  destruct (Nat.lt_ge_cases i (length l)) as [Hi|Hi].
  - rewrite Forall_forall in Hs. apply Hs. apply nth_In; auto.
  - rewrite nth_overflow by auto. lia.
Qed.

Lemma planes_stride T im w h g : is_target T -> strides_below (usz T) im -> 0 <= w ->
  In g (image_planes im w h) -> 0 <= g_stride g.
Proof.
  intros HT Hs Hw. unfold image_planes, planes.
  destruct (i_pf im); try destruct (i_planes im =? 1); cbn [In bytes_per_pixel]; intros H;
    repeat (destruct H as [H|H]; [subst g; cbn [g_stride]; eapply eff_stride_nonneg; eauto; lia|]);
    destruct H.
Qed.

Lemma image_in_overflow T im w h bufs s : is_target T -> 0 < w -> 0 < h -> 0 <= s ->
  strides_below (usz T) im -> valid_num_planes (i_pf im) (i_planes im) ->
  valid_size (i_pf im) w h ->
  (forall i, buf_len bufs i <= isize_max T) -> image_in s im w h bufs -> no_overflow T im w h.
Proof.
  intros HT Hw Hh Hs0 Hs Hn Hz Hl Hin. pose proof (isize_usz T HT).
  split.
  - destruct (is_rgb (i_pf im)) eqn:R.
    + unfold image_in in Hin. rewrite (planes_rgb w h im (i_pf im) R eq_refl) in Hin.
      inversion_clear Hin as [|? ? H1 _]. unfold plane_in in H1. cbn [g_base g_rows g_stride g_row g_buf] in H1.
      specialize (Hl 0%nat). assert (0 <= bytes_per_pixel (i_pf im)) by (clear - R; destruct (i_pf im); try discriminate; cbn; lia).
      pose proof (eff_stride_nonneg T im 0 (bytes_per_pixel (i_pf im) * w) HT Hs ltac:(nia)).
      assert (0 <= (h - 1) * eff_stride (i_strides im) 0 (bytes_per_pixel (i_pf im) * w)) by (apply Z.mul_nonneg_nonneg; lia).
      lia.
    + replace (bytes_per_pixel (i_pf im)) with 0 by (destruct (i_pf im); try discriminate; reflexivity). lia.
  - intros E1 E2. unfold image_in, image_planes, planes in Hin. rewrite E1, E2 in Hin. cbn [Z.eqb Pos.eqb] in Hin.
    inversion_clear Hin as [|? ? _ H2]. inversion_clear H2 as [|? ? H1 _].
    unfold plane_in in H1. cbn [g_base g_rows g_stride g_row g_buf] in H1.
    specialize (Hl 0%nat). rewrite E1 in Hz. cbn in Hz.
    pose proof (eff_stride_nonneg T im 0 w HT Hs ltac:(lia)).
    assert (0 <= (h / 2 - 1) * eff_stride (i_strides im) 0 w) by (apply Z.mul_nonneg_nonneg; lia).
    lia.
Qed.

Lemma planes_rows im w h g : 0 < w -> 0 < h -> valid_size (i_pf im) w h ->
  In g (image_planes im w h) -> 1 <= g_rows g.
Proof.
  intros Hw Hh Hz. unfold image_planes, planes.
  destruct (i_pf im); try destruct (i_planes im =? 1); cbn [In valid_size] in *; intros H;
    repeat (destruct H as [H|H]; [subst g; cbn [g_rows]; lia|]); destruct H.
Qed.

Lemma image_fits_in im w h bufs : 0 < w -> 0 < h -> valid_size (i_pf im) w h ->
  image_fits im w h bufs -> image_in 0 im w h bufs /\ rows_apart im w h.
Proof.
  intros Hw Hh Hz Hf. unfold image_fits, image_in, rows_apart, plane_in in *.
  rewrite Forall_forall in Hf. rewrite !Forall_forall. split.
  - intros g Hg. destruct (Hf g Hg). nia.
  - intros g Hg. apply (Hf g Hg).
Qed.

Lemma image_fits_accepted T both im w h bufs lens : is_target T -> 0 < w -> 0 < h ->
  valid_size (i_pf im) w h -> strides_below (usz T) im ->
  (both = true -> is_rgb (i_pf im) = true) ->
  (forall i, buf_len bufs i <= lens i) ->
  image_fits im w h bufs -> image_accepted both lens im w h = true.
Proof.
  intros HT Hw Hh Hz Hst Hboth Hl Hf.
  pose proof (fun g => planes_rows im w h g Hw Hh Hz) as Hrows.
  unfold image_fits in Hf. rewrite Forall_forall in Hf.
  assert (Hgen : (i_pf im = Nv12 -> i_planes im = 1 -> False) ->
    forallb (fun g => accepts (lens (g_buf g)) (g_stride g) (g_rows g)
                                (if both then w else g_row g)) (image_planes im w h) = true).
  { intros Hne. apply forallb_forall. intros g Hg. destruct (Hf g Hg) as [F1 F2].
    specialize (Hrows g Hg). specialize (Hl (g_buf g)).
    assert (Hb0 : g_base g = 0 /\ (both = true -> w <= g_row g)).
    { clear - Hg Hne Hboth Hw. unfold image_planes, planes in Hg.
      destruct (i_pf im) eqn:Pf; try (destruct (Z.eqb_spec (i_planes im) 1) as [E1|E1]; [solve [exfalso; auto]|]);
        cbn [In bytes_per_pixel] in Hg;
        repeat (destruct Hg as [Hg|Hg]; [subst g; cbn [g_base g_row]; split; [lia|];
           first [intros _; lia | intros Eb; discriminate (Hboth Eb)]|]); destruct Hg. }
    destruct Hb0 as [B0 B1]. unfold accepts.
    apply Z.leb_le.
    assert (Hx : (if both then w else g_row g) <= g_row g) by (destruct both; auto; lia).
    set (x := if both then w else g_row g) in *. clearbody x.
    nia. }
  unfold image_accepted.
  destruct (i_pf im) eqn:Pf; try (apply Hgen; congruence).
  destruct (Z.eqb_spec (i_planes im) 1) as [E1|E1]; [|apply Hgen; congruence].
  clear Hgen. cbn [valid_size] in Hz. unfold image_planes, planes in *. rewrite Pf, E1 in *.
  cbn [Z.eqb Pos.eqb] in *.
  pose proof (eff_stride_nonneg T im 0 w HT Hst ltac:(lia)).
  set (s := eff_stride (i_strides im) 0 w) in *. clearbody s.
  destruct (Hf _ (or_introl eq_refl)) as [F1 F2].
  destruct (Hf _ (or_intror (or_introl eq_refl))) as [F3 F4].
  cbn [g_base g_row g_rows g_stride g_buf] in *. specialize (Hl 0%nat).
  assert (2 * (h / 2) = h) by lia. set (ch := h / 2) in *. clearbody ch. subst h.
  rewrite !andb_true_iff. unfold accepts. repeat split; apply Z.leb_le; nia.
Qed.
