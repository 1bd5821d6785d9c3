(** The kernels that read whole BGRA pixels do read the alpha of the last one: a run that
    succeeds had this byte in its buffer. *)
From Coq Require Import ZArith List Bool Lia ZifyBool ZifyNat.
Import ListNotations.
From Verif Require Import Base Fmt Common Scalar Wrappers Simd Vector CpuInfo Lib Sets Spec SetSpec ApiSpec LibFacts NeedFacts Avx2Reorder.
From Verif Require Sse2 Avx2 Neon.
Open Scope Z_scope.
Ltac Zify.zify_post_hook ::= Z.div_mod_to_equations.

Section Alpha.
Variable T : target.
Variable SB : list (list Z).

Notation keeps := (NeedFacts.keeps T).
Notation demands := (NeedFacts.demands T SB).
Notation needed n p := (n <= zlen (nth p SB [])).

Lemma keeps_loop {S} (f : S -> M S) n : (forall s, keeps (f s)) -> forall s, keeps (loop n s f).
Proof. intros H. induction n; intros s; cbn [loop]; [apply keeps_ret|]. apply keeps_bind; auto. Qed.
Lemma keeps_order l : keeps (in_order l).
Proof. intros m v m'. (unfold in_order; cbn [run]). congruence. Qed.
Lemma keeps_ld_u64 s i : keeps (ld_u64 s i).
Proof.
  unfold ld_u64, ld_word. apply keeps_bind; [apply keeps_ldn|intros]. apply keeps_bind; [apply keeps_order|intros; apply keeps_ret].
Qed.
Lemma keeps_st_u64 s i v : keeps (st_u64 s i v).
Proof. unfold st_u64, st_word. apply keeps_bind; [apply keeps_order|intros; apply keeps_stn]. Qed.
Lemma keeps_slice s i : keeps (slice_from s i).
Proof. unfold slice_from. apply keeps_if; [apply keeps_ret|apply keeps_raise]. Qed.

Ltac keeps :=
  repeat first
    [ apply keeps_ret | apply keeps_raise | apply keeps_ures | apply keeps_wg | apply keeps_ldn | apply keeps_stn
    | apply keeps_ld | apply keeps_st | apply keeps_aidx | apply keeps_split | apply keeps_oob
    | apply keeps_ld_u64 | apply keeps_st_u64 | apply keeps_slice
    | apply keeps_or | apply keeps_if | apply keeps_for; intros ? | apply keeps_loop; intros ? | apply keeps_bind; [|intros ?]
    | match goal with
      | |- NeedFacts.keeps _ (let '(_, _) := ?p in _) => destruct p
      | |- NeedFacts.keeps _ (umul _ _) => apply keeps_ures
      | |- NeedFacts.keeps _ (uadd _ _) => apply keeps_ures
      | |- NeedFacts.keeps _ (usub _ _) => apply keeps_ures
      end ].

(** Values. *)
Definition yields {A} (Q : A -> Prop) (c : M A) : Prop := forall m v m', c T m = Ok v m' -> Q v.
Lemma yields_bind {A B} (R : A -> Prop) (Q : B -> Prop) (c : M A) k :
  yields R c -> (forall v, R v -> yields Q (k v)) -> yields Q (bind c k).
Proof.
  intros Hc Hk m v m' E. (unfold bind in E; cbn [run] in E). destruct (c T m) as [a m1|f] eqn:E1; [|discriminate].
  exact (Hk a (Hc _ _ _ E1) _ _ _ E).
Qed.
Lemma yields_skip {A B} (Q : B -> Prop) (c : M A) k : (forall v, yields Q (k v)) -> yields Q (bind c k).
Proof. intros H. apply yields_bind with (R := fun _ => True); auto. intros m v m' _. exact I. Qed.
Lemma yields_ret {A} (Q : A -> Prop) a : Q a -> yields Q (ret a).
Proof. intros H m v m' [= <- _]. exact H. Qed.
Lemma yields_ures r : 0 <= r < usz T -> yields (fun v => v = r) (ures r).
Proof. intros H m v m'. (unfold ures; cbn [run]). replace (_ && _) with true by lia. congruence. Qed.
Lemma yields_loop {S} (I : Z -> S -> Prop) (f : S -> M S) n : forall i s, I i s ->
  (forall j s, i <= j < i + Z.of_nat n -> I j s -> yields (I (j + 1)) (f s)) ->
  yields (I (i + Z.of_nat n)) (loop n s f).
Proof.
  induction n as [|n IH]; intros i s Hs Hf; cbn [loop].
  - apply yields_ret. replace (i + Z.of_nat 0) with i by lia. exact Hs.
  - apply yields_bind with (R := I (i + 1)); [apply Hf; [lia|exact Hs]|]. intros v Hv.
    replace (i + Z.of_nat (Datatypes.S n)) with (i + 1 + Z.of_nat n) by lia. apply IH; [exact Hv|].
    intros j s' Hj. apply Hf. lia.
Qed.

(** The last round of a loop. *)
Lemma demands_loop {S} (I : Z -> S -> Prop) P (f : S -> M S) n : (0 < n)%nat -> (forall s, keeps (f s)) -> forall i s, I i s ->
  (forall j s, i <= j < i + Z.of_nat n -> I j s -> yields (I (j + 1)) (f s)) ->
  (forall s, I (i + Z.of_nat n - 1) s -> demands all P (f s)) ->
  demands all P (loop n s f).
Proof.
  intros Hn Hk. induction n as [|n IH]; intros i s Hs Hf Hl; [lia|]. cbn [loop].
  destruct n as [|n].
  - apply demands_now. apply Hl. replace (i + Z.of_nat 1 - 1) with i by lia. exact Hs.
  - apply demands_after with (Q := I (i + 1)); [apply Hk|apply Hf; [lia|exact Hs]|]. intros v Hv.
    apply IH with (i := i + 1); [lia|exact Hv| |].
    + intros j s' Hj. apply Hf. lia.
    + intros s' Hs'. apply Hl. replace (i + Z.of_nat (Datatypes.S (Datatypes.S n)) - 1) with (i + 1 + Z.of_nat (Datatypes.S n) - 1) by lia. exact Hs'.
Qed.

Lemma demands_ld_u64 s p i : s_plane s = Src p -> demands all (needed (s_off s + i + 8) p) (ld_u64 s i).
Proof. intros Hp. unfold ld_u64, ld_word. apply demands_now. apply (demands_ldn T SB s p 8 Hp). lia. Qed.

(** ** To YCbCr *)
Lemma keeps_y_uv_8x smp c src a b y0 y1 y2 : keeps (Neon.rgb_to_y_and_avg_uv_8x smp c src a b y0 y1 y2).
Proof.
  unfold Neon.rgb_to_y_and_avg_uv_8x. apply keeps_bind; [apply keeps_ldn|intros l0].
  destruct (Neon.load_rgb_8x smp l0) as [[? ?] ?]. apply keeps_bind; [apply keeps_stn|intros _].
  apply keeps_bind; [apply keeps_ldn|intros l1]. destruct (Neon.load_rgb_8x smp l1) as [[? ?] ?].
  apply keeps_bind; [apply keeps_stn|intros _]. apply keeps_ret.
Qed.
Lemma keeps_neon_nv12 smp c src a b y0 y1 y2 uv o : keeps (Neon.rgb_to_nv12_8x smp c src a b y0 y1 y2 uv o).
Proof. unfold Neon.rgb_to_nv12_8x. apply keeps_bind; [apply keeps_y_uv_8x|intros []]. apply keeps_stn. Qed.
Lemma keeps_neon_i420 smp c src a b y0 y1 y2 u o v o' : keeps (Neon.rgb_to_i420_8x smp c src a b y0 y1 y2 u o v o').
Proof.
  unfold Neon.rgb_to_i420_8x. apply keeps_bind; [apply keeps_y_uv_8x|intros []]. cbv zeta.
  apply keeps_bind; [apply keeps_stn|intros _; apply keeps_stn].
Qed.
Lemma keeps_neon_i444 smp c src a y0 y1 u o v o' : keeps (Neon.rgb_to_i444_8x smp c src a y0 y1 u o v o').
Proof.
  unfold Neon.rgb_to_i444_8x. apply keeps_bind; [apply keeps_ldn|intros l0].
  destruct (Neon.load_rgb_8x smp l0) as [[? ?] ?]. apply keeps_bind; [apply keeps_stn|intros _].
  destruct (Neon.uv_weights c) as [[[[? ?] ?] ?] ?].
  apply keeps_bind; [apply keeps_stn|intros _; apply keeps_stn].
Qed.
Ltac keeps_all := keeps; first [apply keeps_neon_nv12|apply keeps_neon_i420|apply keeps_neon_i444].

Lemma demands_y_uv_8x c src p a b y0 y1 y2 : s_plane src = Src p ->
  demands all (needed (s_off src + b + 32) p) (Neon.rgb_to_y_and_avg_uv_8x S_Bgra c src a b y0 y1 y2).
Proof.
  intros Hp. unfold Neon.rgb_to_y_and_avg_uv_8x. apply demands_skip; [apply keeps_ldn|intros l0].
  destruct (Neon.load_rgb_8x S_Bgra l0) as [[? ?] ?]. apply demands_skip; [apply keeps_stn|intros _].
  apply demands_now. apply (demands_ldn T SB src p 32 Hp). lia.
Qed.

Lemma needs_nv12_neon c : needs_1_2 T SB 4 32 8 (Neon.rgb_to_nv12_neon S_Bgra 4 c).
Proof.
  intros w h ss s p [y_stride uv_stride] [yb uvb] Hp Ho Hss Hw Hwm Hh Hhm Hlt. unfold Neon.rgb_to_nv12_neon.
  cbv zeta. change Neon.RGB_TO_YUV_WAVES with 8. change (4 * 8) with 32.
  apply demands_for with (j := h / 2 - 1); [intros i; keeps_all|lia|].
  apply demands_for with (j := w / 8 - 1); [intros i; keeps_all|lia|].
  apply demands_skip; [apply keeps_wg|intros i0].
  apply demands_after with (Q := fun i => i = ss * (h - 1) + 4 * (w - 8)); [apply keeps_wg| |intros i1 ->].
  { replace (2 * (h / 2 - 1) + 1) with (h - 1) by lia. replace (4 * (w - 8)) with ((w / 8 - 1) * 32) by lia. apply wg_last; lia. }
  do 3 (apply demands_skip; [apply keeps_wg|intros ?]).
  unfold Neon.rgb_to_nv12_8x. apply demands_now.
  eapply demands_weaken; [apply demands_y_uv_8x; exact Hp|]. unfold vector_end. lia.
Qed.
Lemma needs_i420_neon c : needs_1_3 T SB 4 32 8 2 (Neon.rgb_to_i420_neon S_Bgra 4 c).
Proof.
  intros w h ss s p [[y_stride u_stride] v_stride] [[yb ub] vb] Hp Ho Hss Hw Hwm Hh Hhm Hlt. unfold Neon.rgb_to_i420_neon.
  cbv zeta. change Neon.RGB_TO_YUV_WAVES with 8. change (4 * 8) with 32.
  apply demands_for with (j := h / 2 - 1); [intros i; keeps_all|lia|].
  apply demands_for with (j := w / 8 - 1); [intros i; keeps_all|lia|].
  apply demands_skip; [apply keeps_wg|intros i0].
  apply demands_after with (Q := fun i => i = ss * (h - 1) + 4 * (w - 8)); [apply keeps_wg| |intros i1 ->].
  { replace (2 * (h / 2 - 1) + 1) with (h - 1) by lia. replace (4 * (w - 8)) with ((w / 8 - 1) * 32) by lia. apply wg_last; lia. }
  do 4 (apply demands_skip; [apply keeps_wg|intros ?]).
  unfold Neon.rgb_to_i420_8x. apply demands_now.
  eapply demands_weaken; [apply demands_y_uv_8x; exact Hp|]. unfold vector_end. lia.
Qed.
Lemma needs_i444_neon c : needs_1_3 T SB 4 32 8 1 (Neon.rgb_to_i444_neon S_Bgra 4 c).
Proof.
  intros w h ss s p [[y_stride u_stride] v_stride] [[yb ub] vb] Hp Ho Hss Hw Hwm Hh Hhm Hlt. unfold Neon.rgb_to_i444_neon.
  cbv zeta. change Neon.RGB_TO_YUV_WAVES with 8. change (4 * 8) with 32.
  apply demands_for with (j := h - 1); [intros i; keeps_all|lia|].
  apply demands_for with (j := w / 8 - 1); [intros i; keeps_all|lia|].
  apply demands_after with (Q := fun i => i = ss * (h - 1) + 4 * (w - 8)); [apply keeps_wg| |intros i1 ->].
  { replace (4 * (w - 8)) with ((w / 8 - 1) * 32) by lia. apply wg_last; lia. }
  do 3 (apply demands_skip; [apply keeps_wg|intros ?]).
  unfold Neon.rgb_to_i444_8x. apply demands_now.
  eapply demands_weaken; [apply (demands_ldn T SB s p 32 Hp); lia|]. unfold vector_end. lia.
Qed.

(** ** BGRA to RGB *)
(** All pixels of the source are needed, alpha included, if the width has the property [R]. *)
Definition needs_1_1 (R : Z -> Prop) (k : kernel_1_1) : Prop := forall w h ss s p ds dst,
  s_plane s = Src p -> 0 <= s_off s -> 4 * w <= ss < usz T -> 0 < w -> R w -> 0 < h ->
  ss * (h - 1) + 4 * w < usz T ->
  demands all (needed (s_off s + ss * (h - 1) + 4 * w) p) (k w h ss s ds dst).

Definition at_offset (so step i : Z) (st_ : Z * Z * Z) : Prop := snd (fst st_) = so + step * i.

Lemma keeps_step8 src dst s : keeps (bgra_to_rgb_step8 src dst s).
Proof. destruct s as [[y so] do_]. unfold bgra_to_rgb_step8. cbv zeta. keeps. Qed.
Lemma keeps_copy1 sd dd src dst s : keeps (swap_copy_step1 sd dd src dst s).
Proof. destruct s as [[y so] do_]. unfold swap_copy_step1. keeps. Qed.
Lemma keeps_step32 src dst s : keeps (Avx2.bgra_to_rgb_step32 src dst s).
Proof. destruct s as [[y so] do_]. unfold Avx2.bgra_to_rgb_step32. keeps. Qed.
Lemma keeps_step8' src dst s : keeps (Avx2.bgra_to_rgb_step8_avx2 src dst s).
Proof. destruct s as [[y so] do_]. unfold Avx2.bgra_to_rgb_step8_avx2. cbv zeta. keeps. Qed.

Lemma step8_moves so0 src dst j s : at_offset so0 32 j s -> 0 <= so0 + 32 * (j + 1) < usz T -> 0 <= so0 + 32 * j ->
  yields (at_offset so0 32 (j + 1)) (bgra_to_rgb_step8 src dst s).
Proof.
  intros Hs B B0. destruct s as [[y so] do_]. unfold at_offset in Hs; cbn [fst snd] in Hs. subst so.
  unfold bgra_to_rgb_step8. cbv zeta.
  do 7 (apply yields_skip; intros ?).
  eapply yields_bind; [apply yields_ures; lia|]. cbv beta. intros ? ->.
  do 2 (apply yields_skip; intros ?). apply yields_ret. unfold at_offset. cbn [fst snd]. lia.
Qed.
Lemma step8_needs so0 src p dst j s : s_plane src = Src p -> at_offset so0 32 j s ->
  demands all (needed (s_off src + so0 + 32 * (j + 1)) p) (bgra_to_rgb_step8 src dst s).
Proof.
  intros Hp Hs. destruct s as [[y so] do_]. unfold at_offset in Hs; cbn [fst snd] in Hs. subst so.
  unfold bgra_to_rgb_step8. do 3 (apply demands_skip; [apply keeps_ld_u64|intros ?]).
  apply demands_now. eapply demands_weaken; [apply demands_ld_u64; exact Hp|]. lia.
Qed.

Lemma yields_uadd a b : 0 <= a + b < usz T -> yields (fun v => v = a + b) (uadd a b).
Proof. apply yields_ures. Qed.
Lemma yields_usub a b : 0 <= a - b < usz T -> yields (fun v => v = a - b) (usub a b).
Proof. apply yields_ures. Qed.
Lemma yields_umul a b : 0 <= a * b < usz T -> yields (fun v => v = a * b) (umul a b).
Proof. apply yields_ures. Qed.

Lemma yields_stride a ss : 0 <= a <= ss /\ ss < usz T -> yields (fun v => v = ss) (uadd a (ss - a)).
Proof. intros H m v m' E. apply yields_uadd in E; lia. Qed.

Lemma lower8 w : 0 <= w -> w mod 8 = 0 -> lower_multiple_of_pot w 8 = w.
Proof. intros Hw E. destruct (Avx2Reorder.lower_pot w 3 Hw ltac:(lia)) as (k & Ek & Hk & B). change (2 ^ 3) with 8 in *. lia. Qed.

Lemma needs_bgra_rgb : needs_1_1 (fun w => w mod 8 = 0) bgra_to_rgb.
Proof.
  intros w h ss s p ds dst Hp Ho Hss Hw R Hh Hlt. unfold bgra_to_rgb.
  assert (0 <= ss * (h - 1)) by nia.
  apply demands_after with (Q := fun v => v = 4 * w); [apply keeps_ures|refine (yields_umul _ _ _); lia|intros ? ->].
  apply demands_after with (Q := fun v => v = ss - 4 * w); [apply keeps_ures|refine (yields_usub _ _ _); lia|intros ? ->].
  do 2 (apply demands_skip; [apply keeps_ures|intros ?]). cbv zeta. rewrite lower8 by lia.
  apply demands_for with (j := h - 1).
  { intros i. keeps; [apply keeps_step8|apply keeps_copy1]. }
  { lia. }
  apply demands_after with (Q := fun v => v = 4 * w); [apply keeps_ures|refine (yields_umul _ _ _); lia|intros ? ->].
  apply demands_after with (Q := fun v => v = ss).
  { apply keeps_ures. } { refine (yields_stride _ _ _). lia. }
  intros ? ->.
  apply demands_after with (Q := fun v => v = ss * (h - 1)); [apply keeps_ures|refine (yields_umul _ _ _); lia|intros ? ->].
  do 3 (apply demands_skip; [apply keeps_ures|intros ?]).
  apply demands_now.
  replace (Z.to_nat ((w + 7) / 8)) with (Z.to_nat (w / 8)) by lia.
  apply demands_loop with (I := at_offset (ss * (h - 1)) 32) (i := 0).
  - lia.
  - intros; apply keeps_step8.
  - unfold at_offset. cbn [fst snd]. lia.
  - intros j st Hj Hst. apply step8_moves; auto; lia.
  - intros st Hst. eapply demands_weaken; [apply step8_needs; [exact Hp|exact Hst]|]. lia.
Qed.

Lemma step32_moves so0 src dst j s : at_offset so0 128 j s -> 0 <= so0 + 128 * (j + 1) < usz T -> 0 <= so0 + 128 * j ->
  yields (at_offset so0 128 (j + 1)) (Avx2.bgra_to_rgb_step32 src dst s).
Proof.
  intros Hs B B0. destruct s as [[y so] do_]. unfold at_offset in Hs; cbn [fst snd] in Hs. subst so.
  unfold Avx2.bgra_to_rgb_step32. do 4 (apply yields_skip; intros ?).
  destruct (Avx2.bgra_to_rgb_32x _ _ _ _) as [[? ?] ?].
  do 3 (apply yields_skip; intros ?). change (4 * Avx2.LANE_COUNT) with 128.
  eapply yields_bind; [apply yields_uadd; lia|]. cbv beta. intros ? ->.
  do 2 (apply yields_skip; intros ?). apply yields_ret. unfold at_offset. cbn [fst snd]. lia.
Qed.
Lemma step32_needs so0 src p dst j s : s_plane src = Src p -> at_offset so0 128 j s ->
  demands all (needed (s_off src + so0 + 128 * (j + 1)) p) (Avx2.bgra_to_rgb_step32 src dst s).
Proof.
  intros Hp Hs. destruct s as [[y so] do_]. unfold at_offset in Hs; cbn [fst snd] in Hs. subst so.
  unfold Avx2.bgra_to_rgb_step32. do 3 (apply demands_skip; [apply keeps_ldn|intros ?]).
  apply demands_now. eapply demands_weaken; [apply (demands_ldn T SB src p 32 Hp); lia|]. lia.
Qed.
Lemma step8_moves' so0 src dst j s : at_offset so0 32 j s -> 0 <= so0 + 32 * (j + 1) < usz T -> 0 <= so0 + 32 * j ->
  yields (at_offset so0 32 (j + 1)) (Avx2.bgra_to_rgb_step8_avx2 src dst s).
Proof.
  intros Hs B B0. destruct s as [[y so] do_]. unfold at_offset in Hs; cbn [fst snd] in Hs. subst so.
  unfold Avx2.bgra_to_rgb_step8_avx2. cbv zeta.
  do 4 (apply yields_skip; intros ?). change (4 * 8) with 32.
  eapply yields_bind; [apply yields_uadd; lia|]. cbv beta. intros ? ->.
  do 2 (apply yields_skip; intros ?). apply yields_ret. unfold at_offset. cbn [fst snd]. lia.
Qed.
Lemma step8_needs' so0 src p dst j s : s_plane src = Src p -> at_offset so0 32 j s ->
  demands all (needed (s_off src + so0 + 32 * (j + 1)) p) (Avx2.bgra_to_rgb_step8_avx2 src dst s).
Proof.
  intros Hp Hs. destruct s as [[y so] do_]. unfold at_offset in Hs; cbn [fst snd] in Hs. subst so.
  unfold Avx2.bgra_to_rgb_step8_avx2.
  apply demands_now. eapply demands_weaken; [apply (demands_ldn T SB src p 32 Hp); lia|]. lia.
Qed.

Lemma needs_bgra_rgb_avx2 : needs_1_1 (fun w => w mod 8 = 0) Avx2.bgra_to_rgb_avx2.
Proof.
  intros w h ss s p ds dst Hp Ho Hss Hw R Hh Hlt. unfold Avx2.bgra_to_rgb_avx2.
  assert (0 <= ss * (h - 1)) by nia.
  apply demands_after with (Q := fun v => v = 4 * w); [apply keeps_ures|refine (yields_umul _ _ _); lia|intros ? ->].
  apply demands_after with (Q := fun v => v = ss - 4 * w); [apply keeps_ures|refine (yields_usub _ _ _); lia|intros ? ->].
  do 2 (apply demands_skip; [apply keeps_ures|intros ?]). cbv zeta. rewrite lower8 by lia.
  change Avx2.LANE_COUNT with 32.
  destruct (Avx2Reorder.lower_pot w 5 ltac:(lia) ltac:(lia)) as (m & Em & Hm & Bm). change (2 ^ 5) with 32 in *. rewrite Em.
  apply demands_now.
  apply demands_for with (j := h - 1).
  { intros i. keeps; [apply keeps_step32|apply keeps_step8']. }
  { lia. }
  apply demands_after with (Q := fun v => v = 4 * w); [apply keeps_ures|refine (yields_umul _ _ _); lia|intros ? ->].
  apply demands_after with (Q := fun v => v = ss).
  { apply keeps_ures. } { refine (yields_stride _ _ _). lia. }
  intros ? ->.
  apply demands_after with (Q := fun v => v = ss * (h - 1)); [apply keeps_ures|refine (yields_umul _ _ _); lia|intros ? ->].
  do 2 (apply demands_skip; [apply keeps_ures|intros ?]). apply demands_skip; [apply keeps_ures|intros do_].
  set (o := ss * (h - 1)) in *. clearbody o.
  replace (Z.to_nat ((32 * m + 31) / 32)) with (Z.to_nat m) by lia.
  destruct (Z.eq_dec w (32 * m)) as [E|N].
  - apply demands_now.
    apply demands_loop with (I := at_offset o 128) (i := 0).
    + lia.
    + intros; apply keeps_step32.
    + unfold at_offset. cbn [fst snd]. lia.
    + intros j st Hj Hst. apply step32_moves; auto; lia.
    + intros st Hst. eapply demands_weaken; [apply step32_needs; [exact Hp|exact Hst]|]. lia.
  - pose (I := fun i (st_ : Z * Z * Z) => fst (fst st_) = 32 * i /\ at_offset o 128 i st_).
    apply demands_after with (Q := I m).
    { apply keeps_loop. intros; apply keeps_step32. }
    { assert (Y : yields (I (0 + Z.of_nat (Z.to_nat m))) (loop (Z.to_nat m) (0, o, do_) (Avx2.bgra_to_rgb_step32 s dst))).
      { apply yields_loop.
        - unfold I, at_offset. cbn [fst snd]. lia.
        - intros j st Hj [H1 H2]. intros m0 st' m0' E0. split.
          + revert E0. destruct st as [[y so] do0]. cbn [fst snd] in H1. subst y.
            assert (Y : yields (fun v => fst (fst v) = 32 * (j + 1)) (Avx2.bgra_to_rgb_step32 s dst (32 * j, so, do0))).
            { unfold Avx2.bgra_to_rgb_step32. do 4 (apply yields_skip; intros ?).
              destruct (Avx2.bgra_to_rgb_32x _ _ _ _) as [[? ?] ?].
              do 5 (apply yields_skip; intros ?). change Avx2.LANE_COUNT with 32.
              eapply yields_bind; [apply yields_uadd; lia|]. cbv beta. intros ? ->.
              apply yields_ret. cbn [fst]. lia. }
            intros E0. exact (Y _ _ _ E0).
          + refine (step32_moves o s dst j st H2 _ _ _ _ _ E0); lia. }
      replace (0 + Z.of_nat (Z.to_nat m)) with m in Y by lia. exact Y. }
    intros [[y so] do0] [H1 H2]. unfold at_offset in H2. cbn [fst snd] in H1, H2 |- *. subst y so.
    apply demands_now.
    replace (Z.to_nat ((w - 32 * m + 7) / 8)) with (Z.to_nat (w / 8 - 4 * m)) by lia.
    apply demands_loop with (I := at_offset (o + 128 * m) 32) (i := 0).
    + lia.
    + intros; apply keeps_step8'.
    + unfold at_offset. cbn [fst snd]. lia.
    + intros j st Hj Hst. apply step8_moves'; auto; lia.
    + intros st Hst. eapply demands_weaken; [apply step8_needs'; [exact Hp|exact Hst]|]. lia.
Qed.

Lemma needs_bgra_rgb_neon : needs_1_1 (fun w => w mod 16 = 0) Neon.bgra_to_rgb_neon.
Proof.
  intros w h ss s p ds dst Hp Ho Hss Hw R Hh Hlt. unfold Neon.bgra_to_rgb_neon, Neon.reorder_neon.
  assert (0 <= ss * (h - 1)) by nia.
  assert (K : forall out st, keeps (Neon.reorder_step16 4 out s dst st)).
  { intros out [so do_]. unfold Neon.reorder_step16. cbv zeta. keeps. }
  apply demands_for with (j := h - 1).
  { intros i. keeps. apply K. }
  { lia. }
  apply demands_after with (Q := fun v => v = ss * (h - 1)); [apply keeps_ures|refine (yields_umul _ _ _); lia|intros ? ->].
  apply demands_skip; [apply keeps_ures|intros do_].
  apply demands_now. replace (Z.to_nat ((w + 15) / 16)) with (Z.to_nat (w / 16)) by lia.
  set (o := ss * (h - 1)) in *. clearbody o.
  apply demands_loop with (I := fun i (st_ : Z * Z) => fst st_ = o + 64 * i) (i := 0).
  - lia.
  - intros; apply K.
  - cbn [fst]. lia.
  - intros j [so do0] Hj Hst. cbn [fst] in Hst. subst so. unfold Neon.reorder_step16. cbv zeta.
    do 2 (apply yields_skip; intros ?). change (Z.of_nat 4 * Neon.LANE_COUNT) with 64.
    eapply yields_bind; [apply yields_uadd; lia|]. cbv beta. intros ? ->.
    apply yields_skip; intros ?. apply yields_ret. cbn [fst]. lia.
  - intros [so do0] Hst. cbn [fst] in Hst. subst so. unfold Neon.reorder_step16.
    apply demands_now. eapply demands_weaken; [apply (demands_ldn T SB s p (4 * 16) Hp); lia|]. lia.
Qed.

Lemma keeps_bgra_rgb_neon w h ss s ds dst : keeps (Neon.bgra_to_rgb_neon w h ss s ds dst).
Proof.
  unfold Neon.bgra_to_rgb_neon, Neon.reorder_neon. keeps.
  match goal with |- NeedFacts.keeps _ (Neon.reorder_step16 _ _ _ _ ?st) => destruct st as [so do_] end.
  unfold Neon.reorder_step16. cbv zeta. keeps.
Qed.

Lemma slice_value s i m v m' : slice_from s i T m = Ok v m' -> s_plane v = s_plane s /\ s_off v = s_off s + i.
Proof. unfold slice_from. destruct (_ && _); [|discriminate]. intros [= <- _]. auto. Qed.

Lemma needs_hyb_1_1 kv ks : (forall w h ss s ds dst, keeps (kv w h ss s ds dst)) ->
  needs_1_1 (fun w => w mod 16 = 0) kv -> needs_1_1 (fun w => w mod 8 = 0) ks ->
  needs_1_1 (fun w => w mod 8 = 0) (hyb_1_1 (fun w => lower_multiple_of_pot w 16) 4 3 kv ks).
Proof.
  intros K Hv Hk w h ss s p ds dst Hp Ho Hss Hw R Hh Hlt. cbv beta in R. unfold hyb_1_1. cbv zeta.
  destruct (Avx2Reorder.lower_pot w 4 ltac:(lia) ltac:(lia)) as (m & Em & Hm & Bm). change (2 ^ 4) with 16 in *. rewrite Em.
  assert (0 <= ss * (h - 1)) by nia.
  destruct (Z.eq_dec w (16 * m)) as [E|N].
  - apply demands_now. replace (0 <? 16 * m) with true by lia. rewrite <- E. apply Hv; auto; lia.
  - apply demands_skip; [apply keeps_if; [apply K|apply keeps_ret]|intros _].
    replace (0 <? w - 16 * m) with true by lia.
    apply demands_after with (Q := fun v => v = 16 * m * 4); [apply keeps_ures|refine (yields_umul _ _ _); lia|intros ? ->].
    apply demands_skip; [apply keeps_ures|intros dx].
    apply demands_after with (Q := fun v => s_plane v = Src p /\ s_off v = s_off s + 16 * m * 4); [apply keeps_slice| |].
    { intros mm v mm' E. apply slice_value in E. rewrite Hp in E. exact E. }
    intros s' [Hp' Ho']. apply demands_skip; [apply keeps_slice|intros dst'].
    eapply demands_weaken; [apply (Hk (w - 16 * m) h ss s' p ds dst'); auto; lia|]. lia.
Qed.

(** ** The wrappers *)
Lemma needs_rgb_rgb_w P k w h l1 ss sb l2 ds db s0 s : 0 < w -> 0 < h -> 0 <= 4 * w < usz T ->
  (forall x, nth_error (adata ss) 0 = Some x -> x = s0) -> (forall x, nth_error (adata sb) 0 = Some x -> x = s) ->
  (forall ds dst, demands all P (k w h (compute_stride s0 (4 * w)) s ds dst)) ->
  demands accepted P (rgb_rgb_w 4 3 k w h l1 ss sb l2 ds db).
Proof.
  intros Hw Hh Hrow Es Eb Hk. unfold rgb_rgb_w.
  replace ((w =? 0) || (h =? 0)) with false by lia.
  apply demands_if; [apply demands_accepted_false|]. cbv zeta.
  apply demands_after with (Q := fun v => v = s0); [apply keeps_aidx|intros mm vv mm0 E; apply aidx_value in E; change (Z.to_nat 0) with 0%nat in E; auto|intros ? ->].
  apply demands_after with (Q := fun v => v = 4 * w); [apply keeps_ures|refine (yields_umul _ _ _); lia|intros ? ->].
  apply demands_skip; [apply keeps_aidx|intros ?]. apply demands_skip; [apply keeps_ures|intros ?].
  apply demands_after with (Q := fun v => v = s); [apply keeps_aidx|intros mm vv mm0 E; apply aidx_value in E; change (Z.to_nat 0) with 0%nat in E; auto|intros ? ->].
  apply demands_skip; [apply keeps_aidx|intros ?].
  apply demands_skip; [keeps|intros bad]. apply demands_if; [apply demands_accepted_false|].
  apply demands_now. apply Hk.
Qed.

(** ** The converters *)
Lemma pot_all k w : 0 <= k -> 0 < w -> w mod 2 ^ k = 0 -> lower_multiple_of_pot w (2 ^ k) = w.
Proof.
  intros Hk Hw E. destruct (Avx2Reorder.lower_pot w k ltac:(lia) Hk) as (m & -> & Hm & B).
  pose proof (Z.pow_pos_nonneg 2 k ltac:(lia) Hk) as P. set (n := 2 ^ k) in *. clearbody n.
  apply Z.mod_divide in E; [|lia]. destruct E as [q ->]. assert (m = q) by nia. subst. lia.
Qed.

Lemma converter_alpha set dpf cs cs' w h l1 ss sb l2 ds db s0 s p : supported Bgra dpf = true ->
  (dpf = Nv12 \/ dpf = I420 -> h mod 2 = 0) -> reads_alpha set dpf w = true ->
  (forall x, nth_error (adata ss) 0 = Some x -> x = s0) -> (forall x, nth_error (adata sb) 0 = Some x -> x = s) ->
  s_plane s = Src p -> s_off s = 0 ->
  let stride := compute_stride s0 (4 * w) in
  4 * w <= stride < usz T -> 0 < w -> 0 < h -> stride * (h - 1) + 4 * w < usz T ->
  demands accepted (needed (stride * (h - 1) + 4 * w) p)
    (converters set (conv_of Bgra dpf cs cs') w h l1 ss sb l2 ds db).
Proof.
  intros Hd Hm Ra Es Eb Hp Ho stride Hs Hw Hh Hlt.
  assert (0 <= stride * (h - 1)) by nia. assert (0 <= 4 * w < usz T) by lia.
  assert (P4 : w mod 4 = 0 -> fwd_vector_part 4 4 w = w) by (intros E; apply (pot_all 2); lia).
  assert (P8 : w mod 8 = 0 -> lower_multiple_of_pot w 8 = w) by (intros E; apply (pot_all 3); lia).
  assert (V3 : forall bytes px sub vp kv ks ds' dst', needs_1_3 T SB 4 bytes px sub kv -> bytes = 4 * px ->
     (w mod px = 0 -> vp w = w) -> w mod px = 0 -> h mod sub = 0 ->
     demands all (needed (stride * (h - 1) + 4 * w) p) (hyb_1_3 vp sub 4 kv ks w h stride s ds' dst')).
  { intros bytes px sub vp kv ks ds' dst' Hk Eb' Hvp Hpx Hsub. specialize (Hvp Hpx).
    eapply demands_weaken; [apply (needs_hyb_1_3 T SB 4 bytes px sub vp kv ks ltac:(lia) Hk w h stride s p ds' dst'); rewrite ?Hvp; auto; lia|].
    rewrite Hvp. unfold vector_end. lia. }
  assert (V2 : forall bytes px vp kv ks ds' dst', needs_1_2 T SB 4 bytes px kv -> bytes = 4 * px ->
     (w mod px = 0 -> vp w = w) -> w mod px = 0 -> h mod 2 = 0 ->
     demands all (needed (stride * (h - 1) + 4 * w) p) (hyb_1_2 vp 4 kv ks w h stride s ds' dst')).
  { intros bytes px vp kv ks ds' dst' Hk Eb' Hvp Hpx Hsub. specialize (Hvp Hpx).
    eapply demands_weaken; [apply (needs_hyb_1_2 T SB 4 bytes px vp kv ks ltac:(lia) Hk w h stride s p ds' dst'); rewrite ?Hvp; auto; lia|].
    rewrite Hvp. unfold vector_end. lia. }
  unfold reads_alpha in Ra. unfold conv_of.
  destruct dpf; try discriminate Hd; cbn [is_rgb] in *.
  - (* RGB *)
    assert (N : forall k, needs_1_1 (fun w => w mod 8 = 0) k -> demands accepted (needed (stride * (h - 1) + 4 * w) p)
      (rgb_rgb_w 4 3 k w h l1 ss sb l2 ds db)).
    { intros k Hk. apply needs_rgb_rgb_w with (s0 := s0) (s := s); auto. intros ds' dst'. fold stride.
      eapply demands_weaken; [apply (Hk w h stride s p ds' dst'); auto; lia|]. lia. }
    destruct set; cbn [converters x86_converter sse2_converter avx2_converter neon_converter]; apply N.
    + exact needs_bgra_rgb.
    + exact needs_bgra_rgb.
    + exact needs_bgra_rgb_avx2.
    + apply needs_hyb_1_1; [intros; apply keeps_bgra_rgb_neon|exact needs_bgra_rgb_neon|exact needs_bgra_rgb].
  - destruct set; [discriminate Ra| | |]; cbn [converters sse2_converter avx2_converter neon_converter sampler_of pf_depth];
      unfold Sse2.sse2_rgb_i444, Avx2.avx2_rgb_i444, Neon.neon_rgb_i444;
      apply needs_rgb_i4xx_w with (s0 := s0) (s := s); auto; intros ds' dst'; fold stride.
    + apply V3 with (bytes := 16) (px := 4) (sub := 1); [apply needs_i444_sse2; lia|lia|exact P4|lia|apply Z.mod_1_r].
    + apply V3 with (bytes := 32) (px := 8) (sub := 1); [apply needs_i444_avx2; lia|lia|exact P8|lia|apply Z.mod_1_r].
    + apply V3 with (bytes := 32) (px := 8) (sub := 1); [apply needs_i444_neon|lia|exact P8|lia|apply Z.mod_1_r].
  - destruct set; [discriminate Ra| | |]; cbn [converters sse2_converter avx2_converter neon_converter sampler_of pf_depth];
      unfold Sse2.sse2_rgb_i420, Avx2.avx2_rgb_i420, Neon.neon_rgb_i420;
      apply needs_rgb_i4xx_w with (s0 := s0) (s := s); auto; intros ds' dst'; fold stride.
    + apply V3 with (bytes := 16) (px := 4) (sub := 2); [apply needs_i420_sse2; lia|lia|exact P4|lia|auto].
    + apply V3 with (bytes := 32) (px := 8) (sub := 2); [apply needs_i420_avx2; lia|lia|exact P8|lia|auto].
    + apply V3 with (bytes := 32) (px := 8) (sub := 2); [apply needs_i420_neon|lia|exact P8|lia|auto].
  - destruct set; [discriminate Ra| | |]; cbn [converters sse2_converter avx2_converter neon_converter sampler_of pf_depth];
      unfold Sse2.sse2_rgb_nv12, Avx2.avx2_rgb_nv12, Neon.neon_rgb_nv12;
      apply needs_rgb_nv12_w with (s0 := s0) (s := s); auto; intros ds' dst'; fold stride.
    + apply V2 with (bytes := 16) (px := 4); [apply needs_nv12_sse2; lia|lia|exact P4|lia|auto].
    + apply V2 with (bytes := 32) (px := 8); [apply needs_nv12_avx2; lia|lia|exact P8|lia|auto].
    + apply V2 with (bytes := 32) (px := 8); [apply needs_nv12_neon|lia|exact P8|lia|auto].
Qed.
End Alpha.
