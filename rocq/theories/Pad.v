(** The SSE2 and AVX2 kernels that read BGR images may read a few bytes after the end of
    the image.  Here a run is compared with a run on a longer source buffer: it stops at a
    read out of bounds, or it does exactly the same. *)
From Coq Require Import ZArith List Bool Lia ZifyBool ZifyNat.
Import ListNotations.
From Verif Require Import Base Fmt Common Scalar Wrappers Simd Vector CpuInfo Lib Sets Spec ApiSpec Api ConvProofs.
From Verif Require Sse2 Avx2.
Open Scope Z_scope.
Ltac Zify.zify_post_hook ::= Z.div_mod_to_equations.

Section Sim.
Variable T : target.
Variables S1 S2 : list (list Z).
Hypothesis HS : forall n, exists pad, nth n S2 [] = nth n S1 [] ++ pad.

Definition grown (m1 m2 : mem) : Prop := srcs m1 = S1 /\ srcs m2 = S2 /\ dsts m1 = dsts m2.

(** [c1] runs on the short buffers, [c2] on the long ones; [G]: results of [c1] after
    which nothing is said. *)
Definition sim {A} (G : A -> Prop) (c1 c2 : M A) : Prop := forall m1 m2, grown m1 m2 ->
  match c1 T m1 with
  | Ok v m1' => G v \/ exists m2', c2 T m2 = Ok v m2' /\ grown m1' m2'
  | Fault OOB_read => True
  | Fault f => c2 T m2 = Fault f
  end.
Definition same {A} := @sim A (fun _ => False).

Lemma sim_bind {A B} (G : B -> Prop) (Q : A -> Prop) (c1 c2 : M A) (k1 k2 : A -> M B) :
  (forall m v m', c1 T m = Ok v m' -> Q v) ->
  same c1 c2 -> (forall v, Q v -> sim G (k1 v) (k2 v)) -> sim G (bind c1 k1) (bind c2 k2).
Proof.
  intros HQ Hc Hk m1 m2 Hm. specialize (Hc m1 m2 Hm). (unfold bind; cbn [run]).
  destruct (c1 T m1) as [v m1'|f] eqn:E.
  - destruct Hc as [[]|(m2' & -> & Hm')]. apply Hk; auto. eapply HQ; eauto.
  - destruct f; auto; rewrite Hc; reflexivity.
Qed.

Lemma same_bind {A B} (G : B -> Prop) (c1 c2 : M A) (k1 k2 : A -> M B) :
  same c1 c2 -> (forall v, sim G (k1 v) (k2 v)) -> sim G (bind c1 k1) (bind c2 k2).
Proof. intros Hc Hk. apply sim_bind with (Q := fun _ => True); auto. Qed.

Lemma same_ret {A} (a : A) G : sim G (ret a) (ret a).
Proof. intros m1 m2 Hm. cbn. right. exists m2. auto. Qed.
Lemma same_raise {A} f (G : A -> Prop) : sim G (raise f) (raise f).
Proof. intros m1 m2 Hm. cbn. destruct f; auto. Qed.
Lemma same_if {A} (b : bool) (G : A -> Prop) c1 c2 d1 d2 :
  sim G c1 c2 -> sim G d1 d2 -> sim G (if b then c1 else d1) (if b then c2 else d2).
Proof. destruct b; auto. Qed.

Lemma same_ures r : same (ures r) (ures r).
Proof.
  intros m1 m2 Hm. (unfold ures; cbn [run]). destruct ((0 <=? r) && (r <? usz T)); [right; eauto|].
  destruct (checked T); [reflexivity|right; eauto].
Qed.
Lemma same_ires r : same (ires r) (ires r).
Proof.
  intros m1 m2 Hm. (unfold ires; cbn [run]). destruct ((- 2 ^ 31 <=? r) && (r <? 2 ^ 31)); [right; eauto|].
  destruct (checked T); [reflexivity|right; eauto].
Qed.

Lemma same_aidx {A} (a : arr A) i : same (aidx a i) (aidx a i).
Proof.
  unfold aidx. apply same_if; [|apply same_raise].
  destruct (nth_error (adata a) (Z.to_nat i)); [apply same_ret|apply same_raise].
Qed.
Lemma same_split s i : same (split_at s i) (split_at s i).
Proof. unfold split_at. apply same_if; [apply same_ret|apply same_raise]. Qed.
Lemma same_slice s i : same (slice_from s i) (slice_from s i).
Proof. unfold slice_from. apply same_if; [apply same_ret|apply same_raise]. Qed.

Lemma same_st s i v : same (st s i v) (st s i v).
Proof.
  intros m1 m2 (E1 & E2 & E3). (unfold st; cbn [run]). destruct (s_plane s); [reflexivity|]. cbv zeta. rewrite <- E3.
  destruct (_ && _); [|reflexivity].
  right. eexists. split; [reflexivity|]. unfold grown. cbn [srcs dsts]. auto.
Qed.
Lemma same_stn s l : forall i, same (stn s i l) (stn s i l).
Proof.
  induction l as [|b l IH]; intros i; cbn [stn]; [apply same_ret|].
  apply same_bind; [apply same_st|intros _; apply IH].
Qed.

(** Views of the same source buffer, the second one longer. *)
Definition longer (s1 s2 : slice) : Prop :=
  (exists n, s_plane s1 = Src n) /\ s_plane s1 = s_plane s2 /\ s_off s1 = s_off s2 /\ s_len s1 <= s_len s2.

Lemma same_ld s1 s2 i : longer s1 s2 -> same (ld s1 i) (ld s2 i).
Proof.
  intros ((n & Pn) & Ep & Eo & El) m1 m2 (E1 & E2 & E3). (unfold ld; cbn [run]). cbv zeta.
  rewrite <- Ep, <- Eo, Pn. cbn [plane_bytes]. rewrite E1, E2. destruct (HS n) as (pad & Hp). rewrite Hp.
  set (b := nth n S1 []). set (a := s_off s1 + i).
  assert (Hl : zlen (b ++ pad) = zlen b + zlen pad) by (unfold zlen; rewrite app_length; lia).
  assert (Hz : 0 <= zlen pad) by (unfold zlen; lia).
  destruct ((0 <=? i) && (i <? s_len s1) && (0 <=? a) && (a <? zlen b)) eqn:E; [|exact I].
  right. exists m2. replace (_ && _ && _ && _) with true by lia.
  rewrite app_nth1 by (unfold zlen in E; lia). split; [reflexivity|]. unfold grown; auto.
Qed.

Lemma same_ldn s1 s2 n : longer s1 s2 -> forall i, same (ldn s1 i n) (ldn s2 i n).
Proof.
  intros HL. induction n as [|n IH]; intros i; cbn [ldn]; [apply same_ret|].
  apply same_bind; [apply same_ld; auto|intros x]. apply same_bind; [apply IH|intros xs; apply same_ret].
Qed.

Lemma same_for_from n : forall i f1 f2, (forall i, same (f1 i) (f2 i)) -> same (for_from n i f1) (for_from n i f2).
Proof.
  induction n as [|n IH]; intros i f1 f2 H; cbn [for_from]; [apply same_ret|].
  apply same_bind; [apply H|intros _; apply IH; auto].
Qed.
Lemma same_for n f1 f2 : (forall i, same (f1 i) (f2 i)) -> same (for_ n f1) (for_ n f2).
Proof. apply same_for_from. Qed.

Lemma bind_slice_from {A} s1 s2 i (k1 k2 : slice -> M A) G : longer s1 s2 -> i <= s_len s1 ->
  (forall t1 t2, longer t1 t2 -> sim G (k1 t1) (k2 t2)) ->
  sim G (bind (slice_from s1 i) k1) (bind (slice_from s2 i) k2).
Proof.
  intros (Hn & Ep & Eo & El) Hi Hk. unfold slice_from.
  replace (i <=? s_len s1) with true by lia. replace (i <=? s_len s2) with true by lia.
  destruct (0 <=? i); cbn [andb]; intros m1 m2 Hm; [|reflexivity].
  (unfold bind, ret; cbn [run]). apply Hk; auto.
  unfold longer; cbn [s_plane s_off s_len]. repeat split; auto; lia.
Qed.

(** ** The kernels *)
Ltac same :=
  repeat match goal with
  | |- sim _ (bind _ _) (bind _ _) => apply same_bind; [|intros ?]
  | |- same (bind _ _) (bind _ _) => apply same_bind; [|intros ?]
  | |- same (ret _) (ret _) => apply same_ret
  | |- same (if _ then _ else _) (if _ then _ else _) => apply same_if
  | |- same (for_ _ _) (for_ _ _) => apply same_for; intros ?
  | |- same (stn _ _ _) (stn _ _ _) => apply same_stn
  | |- same (st _ _ _) (st _ _ _) => apply same_st
  | |- same (ldn _ _ _) (ldn _ _ _) => apply same_ldn; assumption
  | |- same (ld _ _) (ld _ _) => apply same_ld; assumption
  | |- same (slice_from _ _) (slice_from _ _) => apply same_slice
  | |- same (ires _) (ires _) => apply same_ires
  | |- same (ures _) (ures _) => apply same_ures
  | |- same (iadd _ _) (iadd _ _) => apply same_ires
  | |- same (imul _ _) (imul _ _) => apply same_ires
  | |- same (ineg _) (ineg _) => apply same_ires
  | |- same (uadd _ _) (uadd _ _) => apply same_ures
  | |- same (umul _ _) (umul _ _) => apply same_ures
  | |- same (usub _ _) (usub _ _) => apply same_ures
  | |- sim _ (let '(_, _) := ?x in _) (let '(_, _) := ?x in _) => destruct x
  | |- same (let '(_, _) := ?x in _) (let '(_, _) := ?x in _) => destruct x
  | |- same (match ?x with pair _ _ => _ end) _ => destruct x
  | |- sim (fun _ => False) ?a ?b => change (same a b)
  | |- same (wg_index _ _ _ _) _ => unfold wg_index
  | |- same (affine_transform _ _ _ _ _ _ _) _ => unfold affine_transform
  | |- same (unpack_ui8x3_i32 _ _ _) _ => unfold unpack_ui8x3_i32
  | |- same (pack_i32x2 _ _ _ _) _ => unfold pack_i32x2
  | |- same (fwd_luma_2x2 _ _ _ _ _ _ _ _ _) _ => unfold fwd_luma_2x2
  | |- same (fwd_yb _) _ => unfold fwd_yb
  | |- same (fwd_zb _ _) _ => unfold fwd_zb
  | |- same (Sse2.rgb_to_yuv_4x _ _ _ _ _ _ _ _ _ _ _) _ => unfold Sse2.rgb_to_yuv_4x
  | |- same (Sse2.rgb_to_i420_4x _ _ _ _ _ _ _ _ _ _ _ _ _) _ => unfold Sse2.rgb_to_i420_4x
  | |- same (Sse2.rgb_to_i444_4x _ _ _ _ _ _ _ _ _ _ _ _) _ => unfold Sse2.rgb_to_i444_4x
  | |- same (Avx2.rgb_to_yuv_8x _ _ _ _ _ _ _ _ _ _ _) _ => unfold Avx2.rgb_to_yuv_8x
  | |- same (Avx2.rgb_to_i420_8x _ _ _ _ _ _ _ _ _ _ _ _ _) _ => unfold Avx2.rgb_to_i420_8x
  | |- same (Avx2.rgb_to_i444_8x _ _ _ _ _ _ _ _ _ _ _ _) _ => unfold Avx2.rgb_to_i444_8x
  end.

Definition pads_1_2 (k : kernel_1_2) : Prop := forall w h ss s1 s2 ds dst, longer s1 s2 ->
  same (k w h ss s1 ds dst) (k w h ss s2 ds dst).
Definition pads_1_3 (k : kernel_1_3) : Prop := forall w h ss s1 s2 ds dst, longer s1 s2 ->
  same (k w h ss s1 ds dst) (k w h ss s2 ds dst).

Lemma pads_nv12 smp d c : pads_1_2 (rgb_to_nv12 smp d c).
Proof. intros w h ss s1 s2 [? ?] [? ?] HL. unfold rgb_to_nv12. cbv zeta. same. Qed.
Lemma pads_i420 smp d c : pads_1_3 (rgb_to_i420 smp d c).
Proof. intros w h ss s1 s2 [[? ?] ?] [[? ?] ?] HL. unfold rgb_to_i420. cbv zeta. same. Qed.
Lemma pads_i444 smp d c : pads_1_3 (rgb_to_i444 smp d c).
Proof. intros w h ss s1 s2 [[? ?] ?] [[? ?] ?] HL. unfold rgb_to_i444. cbv zeta. same. Qed.

Lemma pads_nv12_sse2 smp d c : pads_1_2 (Sse2.rgb_to_nv12_sse2 smp d c).
Proof. intros w h ss s1 s2 [? ?] [? ?] HL. unfold Sse2.rgb_to_nv12_sse2. same. Qed.
Lemma pads_i420_sse2 smp d c : pads_1_3 (Sse2.rgb_to_i420_sse2 smp d c).
Proof. intros w h ss s1 s2 [[? ?] ?] [[? ?] ?] HL. unfold Sse2.rgb_to_i420_sse2. same. Qed.
Lemma pads_i444_sse2 smp d c : pads_1_3 (Sse2.rgb_to_i444_sse2 smp d c).
Proof. intros w h ss s1 s2 [[? ?] ?] [[? ?] ?] HL. unfold Sse2.rgb_to_i444_sse2. same. Qed.
Lemma pads_nv12_avx2 smp d c : pads_1_2 (Avx2.rgb_to_nv12_avx2 smp d c).
Proof. intros w h ss s1 s2 [? ?] [? ?] HL. unfold Avx2.rgb_to_nv12_avx2. same. Qed.
Lemma pads_i420_avx2 smp d c : pads_1_3 (Avx2.rgb_to_i420_avx2 smp d c).
Proof. intros w h ss s1 s2 [[? ?] ?] [[? ?] ?] HL. unfold Avx2.rgb_to_i420_avx2. same. Qed.
Lemma pads_i444_avx2 smp d c : pads_1_3 (Avx2.rgb_to_i444_avx2 smp d c).
Proof. intros w h ss s1 s2 [[? ?] ?] [[? ?] ?] HL. unfold Avx2.rgb_to_i444_avx2. same. Qed.

(** ** Vector part and scalar part *)
Lemma umul_le a b : 0 <= a * b -> 0 < usz T -> forall m v m', umul a b T m = Ok v m' -> v <= a * b.
Proof.
  intros H0 HT m v m'. (unfold umul, ures; cbn [run]).
  destruct ((0 <=? a * b) && (a * b <? usz T)); [intros [= <- _]; lia|].
  destruct (checked T); [discriminate|]. intros [= <- _]. apply Z.mod_le; lia.
Qed.

Definition pads_1_2' (depth : Z) (k : kernel_1_2) : Prop := forall w h ss s1 s2 ds dst, longer s1 s2 ->
  0 <= w -> depth * w <= s_len s1 -> same (k w h ss s1 ds dst) (k w h ss s2 ds dst).
Definition pads_1_3' (depth : Z) (k : kernel_1_3) : Prop := forall w h ss s1 s2 ds dst, longer s1 s2 ->
  0 <= w -> depth * w <= s_len s1 -> same (k w h ss s1 ds dst) (k w h ss s2 ds dst).

Hypothesis HT : 0 < usz T.

Lemma pads_hyb_1_2 vp depth kv ks : 0 < depth -> (forall w, 0 <= w -> 0 <= vp w <= w) ->
  pads_1_2 kv -> pads_1_2 ks -> pads_1_2' depth (hyb_1_2 vp depth kv ks).
Proof.
  intros Hd Hvp Hv Hs w h ss s1 s2 ds dst HL Hw Hlen. unfold hyb_1_2. cbv zeta.
  pose proof (Hvp w Hw).
  apply same_bind; [apply same_if; [apply Hv; auto|apply same_ret]|intros _].
  apply same_if; [|apply same_ret].
  apply sim_bind with (Q := fun v => v <= vp w * depth); [apply umul_le; nia|apply same_ures|intros sx Hsx].
  apply bind_slice_from; [auto|nia|]. intros t1 t2 HL2. same. apply Hs; auto.
Qed.
Lemma pads_hyb_1_3 vp sub depth kv ks : 0 < depth -> (forall w, 0 <= w -> 0 <= vp w <= w) ->
  pads_1_3 kv -> pads_1_3 ks -> pads_1_3' depth (hyb_1_3 vp sub depth kv ks).
Proof.
  intros Hd Hvp Hv Hs w h ss s1 s2 ds dst HL Hw Hlen. unfold hyb_1_3. cbv zeta.
  pose proof (Hvp w Hw).
  apply same_bind; [apply same_if; [apply Hv; auto|apply same_ret]|intros _].
  apply same_if; [|apply same_ret].
  apply sim_bind with (Q := fun v => v <= vp w * depth); [apply umul_le; nia|apply same_ures|intros sx Hsx].
  apply bind_slice_from; [auto|nia|]. intros t1 t2 HL2. same. apply Hs; auto.
Qed.

(** ** The wrappers *)

(** Two arrays of slices: the first one of the second array is longer. *)
Definition longer_first (a1 a2 : arr slice) : Prop :=
  alen a1 = alen a2 /\
  match nth_error (adata a1) 0, nth_error (adata a2) 0 with
  | Some s1, Some s2 => longer s1 s2 /\ s_len s2 < usz T
  | None, None => True
  | _, _ => False
  end.

Lemma bind_first {A} a1 a2 (k1 k2 : slice -> M A) G : longer_first a1 a2 ->
  (forall s1 s2, nth_error (adata a1) 0 = Some s1 -> longer s1 s2 -> s_len s2 < usz T -> sim G (k1 s1) (k2 s2)) ->
  sim G (bind (aidx a1 0) k1) (bind (aidx a2 0) k2).
Proof.
  intros [E H] Hk. unfold aidx. rewrite <- E. change (Z.to_nat 0) with 0%nat.
  destruct ((0 <=? 0) && (0 <? alen a1)); [|intros m1 m2 Hm; reflexivity].
  destruct (nth_error (adata a1) 0) as [s1|], (nth_error (adata a2) 0) as [s2|]; try contradiction.
  - intros m1 m2 Hm. (unfold bind, ret; cbn [run]). apply Hk; tauto.
  - intros m1 m2 Hm. exact I.
Qed.

(** A larger buffer passes the check when a smaller one does. *)
Definition bad (b : bool) : Prop := b = true.

Lemma sim_oob s1 s2 stride h row : s1 <= s2 < usz T -> 0 <= stride ->
  sim bad (oob_call s1 stride h row) (oob_call s2 stride h row).
Proof.
  intros Hs Hst. unfold oob_call. apply same_bind; [apply same_ures|intros k].
  intros m1 m2 Hm. unfold out_of_bounds. cbn [run].
  destruct (Z.ltb_spec s1 stride); [left; reflexivity|].
  replace (s2 <? stride) with false by lia.
  destruct (k =? 0); [right; eexists; split; [reflexivity|exact Hm]|].
  destruct (usize_max T / k <? row); [left; reflexivity|].
  (unfold bind; cbn [run]). pose proof (same_ures (row * k) m1 m2 Hm) as Hu. fold (umul row k) in Hu.
  destruct (umul row k T m1) as [a m1'|f]; [|destruct f; auto; rewrite Hu; reflexivity].
  destruct Hu as [[]|(m2' & -> & Hm')].
  (unfold usub, ures; cbn [run]). replace ((0 <=? s1 - stride) && (s1 - stride <? usz T)) with true by lia.
  replace ((0 <=? s2 - stride) && (s2 - stride <? usz T)) with true by lia. cbn [ret run].
  (unfold ret; cbn [run]). destruct (s1 - stride <? a) eqn:E; [left; reflexivity|].
  right. exists m2'. replace (s2 - stride <? a) with false by lia. auto.
Qed.

Lemma sim_or a1 a2 b1 b2 : sim bad a1 a2 -> sim bad b1 b2 -> sim bad (orM a1 b1) (orM a2 b2).
Proof.
  intros Ha Hb m1 m2 Hm. (unfold orM, bind, ret; cbn [run]). specialize (Ha m1 m2 Hm).
  destruct (a1 T m1) as [[|] m1'|f].
  - left; reflexivity.
  - destruct Ha as [Ha|(m2' & -> & Hm')]; [discriminate Ha|]. apply Hb; auto.
  - destruct f; auto; rewrite Ha; reflexivity.
Qed.

Lemma sim_same {A} (G : A -> Prop) c1 c2 : same c1 c2 -> sim G c1 c2.
Proof.
  intros H m1 m2 Hm. specialize (H m1 m2 Hm). destruct (c1 T m1); [|auto].
  destruct H as [[]|H]; right; exact H.
Qed.

Lemma same_oob s stride h row : sim bad (oob_call s stride h row) (oob_call s stride h row).
Proof.
  apply sim_same. unfold oob_call. apply same_bind; [apply same_ures|intros k].
  intros m1 m2 Hm. unfold out_of_bounds. cbn [run]. revert m1 m2 Hm.
  assert (H : same (if s <? stride then ret true else if k =? 0 then ret false else
      if usize_max T / k <? row then ret true else a <- umul row k ;; b <- usub s stride ;; ret (b <? a))
      (if s <? stride then ret true else if k =? 0 then ret false else
      if usize_max T / k <? row then ret true else a <- umul row k ;; b <- usub s stride ;; ret (b <? a))).
  { same. }
  exact H.
Qed.

Definition refused (b : bool) : Prop := b = false.

Lemma sim_checked c1 c2 (k1 k2 : M bool) : sim bad c1 c2 -> sim refused k1 k2 ->
  sim refused (b <- c1 ;; if (b : bool) then ret false else k1) (b <- c2 ;; if (b : bool) then ret false else k2).
Proof.
  intros Hc Hk m1 m2 Hm. (unfold bind; cbn [run]). specialize (Hc m1 m2 Hm).
  destruct (c1 T m1) as [[|] m1'|f].
  - left; reflexivity.
  - destruct Hc as [Hc|(m2' & -> & Hm')]; [discriminate Hc|]. apply Hk; auto.
  - destruct f; auto; rewrite Hc; reflexivity.
Qed.

Definition strides_nonneg (a : arr Z) : Prop := Forall (fun s => 0 <= s) (adata a).
Lemma aidx_nonneg a i : strides_nonneg a -> forall m v m', aidx a i T m = Ok v m' -> 0 <= v.
Proof.
  intros Ha m v m'. unfold aidx. destruct (_ && _); [|discriminate].
  destruct (nth_error (adata a) (Z.to_nat i)) eqn:E; [|discriminate]. intros [= <- _].
  apply nth_error_In in E. unfold strides_nonneg in Ha. rewrite Forall_forall in Ha. auto.
Qed.
Lemma umul_nonneg a b : forall m v m', umul a b T m = Ok v m' -> 0 <= v.
Proof.
  intros m v m'. (unfold umul, ures; cbn [run]). destruct ((0 <=? a * b) && (a * b <? usz T)) eqn:E; [intros [= <- _]; lia|].
  destruct (checked T); [discriminate|]. intros [= <- _]. apply Z.mod_pos_bound. auto.
Qed.
Lemma compute_stride_nonneg a b : 0 <= a -> 0 <= b -> 0 <= compute_stride a b.
Proof. unfold compute_stride. destruct (a =? 0); auto. Qed.

(** A row of the source is not longer than the buffer. *)
Definition row_in (depth w : Z) (a : arr slice) : Prop :=
  forall s, nth_error (adata a) 0 = Some s -> depth * w <= s_len s.

Ltac first_steps :=
  apply same_if; [apply same_ret|apply same_if; [apply same_ret|]].

Lemma sim_rgb_nv12 depth k w h l1 ss b1 b2 l2 ds db : pads_1_2' depth k -> 0 <= w ->
  strides_nonneg ss -> longer_first b1 b2 -> row_in depth w b1 ->
  sim refused (rgb_nv12_w depth k w h l1 ss b1 l2 ds db) (rgb_nv12_w depth k w h l1 ss b2 l2 ds db).
Proof.
  intros HK Hw Hss HL Hrow. unfold rgb_nv12_w. rewrite (proj1 HL).
  first_steps. cbv zeta.
  apply sim_bind with (Q := fun v => 0 <= v); [apply umul_nonneg|apply same_ures|intros rs Hrs].
  apply sim_bind with (Q := fun v => 0 <= v); [apply aidx_nonneg; auto|apply same_aidx|intros s0 Hs0].
  apply same_bind; [apply same_aidx|intros d0]. apply same_bind; [apply same_aidx|intros d1].
  apply bind_first; auto. intros s1 s2 E1 HS2 Hlt.
  apply same_bind.
  { apply same_if; same; try apply same_aidx; try apply same_split. }
  intros [[yb uvb]|]; [|apply same_ret].
  apply sim_checked.
  - apply sim_or; [apply sim_oob; [split; [apply HS2|auto]|apply compute_stride_nonneg; auto]|].
    apply sim_or; apply same_oob.
  - apply sim_same. same. apply HK; auto.
Qed.

Lemma sim_rgb_i4xx sub depth k w h l1 ss b1 b2 l2 ds db : pads_1_3' depth k -> 0 <= w ->
  strides_nonneg ss -> longer_first b1 b2 -> row_in depth w b1 ->
  sim refused (rgb_i4xx_w sub depth k w h l1 ss b1 l2 ds db) (rgb_i4xx_w sub depth k w h l1 ss b2 l2 ds db).
Proof.
  intros HK Hw Hss HL Hrow. unfold rgb_i4xx_w. rewrite (proj1 HL).
  first_steps. cbv zeta.
  apply sim_bind with (Q := fun v => 0 <= v); [apply umul_nonneg|apply same_ures|intros rs Hrs].
  apply sim_bind with (Q := fun v => 0 <= v); [apply aidx_nonneg; auto|apply same_aidx|intros s0 Hs0].
  do 3 (apply same_bind; [apply same_aidx|intros ?]).
  apply bind_first; auto. intros s1 s2 E1 HS2 Hlt.
  do 3 (apply same_bind; [apply same_aidx|intros ?]).
  apply sim_checked.
  - apply sim_or; [apply sim_oob; [split; [apply HS2|auto]|apply compute_stride_nonneg; auto]|].
    apply sim_or; [apply same_oob|]. apply sim_or; apply same_oob.
  - apply sim_same. same. apply HK; auto.
Qed.
End Sim.
