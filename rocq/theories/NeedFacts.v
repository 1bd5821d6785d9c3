(** The SSE2 and AVX2 kernels that read BGR images do read after the last pixel: a run that
    succeeds had these bytes in its buffer. *)
From Coq Require Import ZArith List Bool Lia ZifyBool ZifyNat.
Import ListNotations.
From Verif Require Import Base Fmt Common Scalar Wrappers Simd Vector CpuInfo Lib Sets.
From Verif Require Sse2 Avx2.
Open Scope Z_scope.
Ltac Zify.zify_post_hook ::= Z.div_mod_to_equations.

Section Needs.
Variable T : target.
Variable SB : list (list Z).

(** Sources are not modified. *)
Definition keeps {A} (c : M A) : Prop := forall m v m', c T m = Ok v m' -> srcs m' = srcs m.

Lemma keeps_bind {A B} (c : M A) (k : A -> M B) : keeps c -> (forall v, keeps (k v)) -> keeps (bind c k).
Proof.
  intros Hc Hk m v m' E. (unfold bind in E; cbn [run] in E). destruct (c T m) as [a m1|f] eqn:E1; [|discriminate].
  rewrite (Hk _ _ _ _ E). exact (Hc _ _ _ E1).
Qed.
Lemma keeps_ret {A} (a : A) : keeps (ret a).
Proof. intros m v m' [= _ <-]. reflexivity. Qed.
Lemma keeps_raise {A} f : keeps (@raise A f).
Proof. intros m v m' E. discriminate E. Qed.
Lemma keeps_ures r : keeps (ures r).
Proof. intros m v m'. (unfold ures; cbn [run]). destruct (_ && _); [|destruct (checked T)]; congruence. Qed.
Lemma keeps_ires r : keeps (ires r).
Proof. intros m v m'. (unfold ires; cbn [run]). destruct (_ && _); [|destruct (checked T)]; congruence. Qed.
Lemma keeps_ld s i : keeps (ld s i).
Proof. intros m v m'. (unfold ld; cbn [run]). cbv zeta. destruct (_ && _); congruence. Qed.
Lemma keeps_st s i b : keeps (st s i b).
Proof.
  intros m v m'. (unfold st; cbn [run]). destruct (s_plane s); [discriminate|]. cbv zeta.
  destruct (_ && _); [|discriminate]. intros [= _ <-]. reflexivity.
Qed.
Lemma keeps_ldn s n : forall i, keeps (ldn s i n).
Proof. induction n; intros i; cbn [ldn]; [apply keeps_ret|]. apply keeps_bind; [apply keeps_ld|]. intros. apply keeps_bind; auto using @keeps_ret. Qed.
Lemma keeps_stn s l : forall i, keeps (stn s i l).
Proof. induction l; intros i; cbn [stn]; [apply keeps_ret|]. apply keeps_bind; [apply keeps_st|auto]. Qed.
Lemma keeps_for_from n : forall i f, (forall i, keeps (f i)) -> keeps (for_from n i f).
Proof. induction n; intros i f H; cbn [for_from]; [apply keeps_ret|]. apply keeps_bind; auto. Qed.
Lemma keeps_for n f : (forall i, keeps (f i)) -> keeps (for_ n f).
Proof. apply keeps_for_from. Qed.
Lemma keeps_if {A} (b : bool) (c d : M A) : keeps c -> keeps d -> keeps (if b then c else d).
Proof. destruct b; auto. Qed.
Lemma keeps_aidx {A} (a : arr A) i : keeps (aidx a i).
Proof. unfold aidx. apply keeps_if; [|apply keeps_raise]. destruct (nth_error _ _); [apply keeps_ret|apply keeps_raise]. Qed.
Lemma keeps_split s i : keeps (split_at s i).
Proof. unfold split_at. apply keeps_if; [apply keeps_ret|apply keeps_raise]. Qed.
Lemma keeps_wg x y w h : keeps (wg_index x y w h).
Proof. unfold wg_index. repeat (apply keeps_bind; intros); apply keeps_ures. Qed.
Lemma keeps_oob a b c d : keeps (oob_call a b c d).
Proof.
  unfold oob_call. apply keeps_bind; [apply keeps_ures|intros k m v m'].
  unfold out_of_bounds. cbn [run]. destruct (a <? b); [apply (keeps_ret true)|]. destruct (k =? 0); [apply (keeps_ret false)|].
  destruct (_ <? _); [apply (keeps_ret true)|].
  apply (keeps_bind (umul d k)); [apply keeps_ures|intros]. apply keeps_bind; [apply keeps_ures|intros; apply keeps_ret].
Qed.
Lemma keeps_or a b : keeps a -> keeps b -> keeps (orM a b).
Proof. intros. unfold orM. apply keeps_bind; auto. intros x. apply keeps_if; auto. apply keeps_ret. Qed.

Ltac keeps :=
  repeat first
    [ apply keeps_ret | apply keeps_raise | apply keeps_ures | apply keeps_wg | apply keeps_ldn | apply keeps_stn
    | apply keeps_ld | apply keeps_st | apply keeps_aidx | apply keeps_split | apply keeps_oob
    | apply keeps_or | apply keeps_if | apply keeps_for; intros ? | apply keeps_bind; [|intros ?]
    | match goal with
      | |- keeps (let '(_, _) := ?p in _) => destruct p
      | |- keeps (umul _ _) => apply keeps_ures
      end ].

(** A run of [c] that ends with a value in [G] requires [P]. *)
Definition demands {A} (G : A -> Prop) (P : Prop) (c : M A) : Prop :=
  forall m v m', srcs m = SB -> c T m = Ok v m' -> G v -> P.
Definition all {A} (_ : A) : Prop := True.

Lemma demands_after {A B} (G : B -> Prop) (Q : A -> Prop) P (c : M A) (k : A -> M B) : keeps c ->
  (forall m v m', c T m = Ok v m' -> Q v) -> (forall v, Q v -> demands G P (k v)) -> demands G P (bind c k).
Proof.
  intros Hk HQ H m v m' Hm E Hv. (unfold bind in E; cbn [run] in E). destruct (c T m) as [a m1|f] eqn:E1; [|discriminate].
  eapply H; [eapply HQ; eauto| |exact E|exact Hv]. rewrite (Hk _ _ _ E1). exact Hm.
Qed.
Lemma demands_skip {A B} (G : B -> Prop) P (c : M A) (k : A -> M B) : keeps c ->
  (forall v, demands G P (k v)) -> demands G P (bind c k).
Proof. intros. apply demands_after with (Q := all); auto. intros; exact I. Qed.
Lemma demands_now {A B} (G : B -> Prop) P (c : M A) (k : A -> M B) : demands all P c -> demands G P (bind c k).
Proof.
  intros H m v m' Hm E _. (unfold bind in E; cbn [run] in E). destruct (c T m) as [a m1|f] eqn:E1; [|discriminate].
  eapply H; eauto. exact I.
Qed.
Lemma demands_for_from P f n : forall i j, (forall i, keeps (f i)) -> i <= j < i + Z.of_nat n ->
  demands all P (f j) -> demands all P (for_from n i f).
Proof.
  induction n as [|n IH]; intros i j Hk Hj Hf; [lia|]. cbn [for_from].
  destruct (Z.eq_dec j i) as [->|N]; [apply demands_now; auto|].
  apply demands_skip; [auto|]. intros _. apply IH with (j := j); auto. lia.
Qed.
Lemma demands_for P f n j : (forall i, keeps (f i)) -> 0 <= j < n ->
  demands all P (f j) -> demands all P (for_ n f).
Proof. intros. unfold for_. apply demands_for_from with (j := j); auto. lia. Qed.

Lemma demands_ld s p i : s_plane s = Src p -> demands all (s_off s + i < zlen (nth p SB [])) (ld s i).
Proof.
  intros Hp m v m' Hm E _. (unfold ld in E; cbn [run] in E). cbv zeta in E. rewrite Hp in E. cbn [plane_bytes] in E. rewrite Hm in E.
  destruct (_ && _) eqn:B in E; [|discriminate]. lia.
Qed.
Lemma demands_ldn s p k : s_plane s = Src p -> (0 < k)%nat -> forall i,
  demands all (s_off s + i + Z.of_nat k <= zlen (nth p SB [])) (ldn s i k).
Proof.
  intros Hp Hk. induction k as [|k IH]; [lia|]. intros i. cbn [ldn].
  destruct k as [|k].
  - apply demands_now. intros m v m' Hm E G. pose proof (demands_ld s p i Hp m v m' Hm E G). lia.
  - apply demands_skip; [apply keeps_ld|intros x]. apply demands_now.
    intros m v m' Hm E G. pose proof (IH ltac:(lia) (i + 1) m v m' Hm E G). lia.
Qed.

Lemma wg_value x y w h m v m' : 0 <= x * w -> 0 <= h * y -> h * y + x * w < usz T ->
  wg_index x y w h T m = Ok v m' -> v = h * y + x * w.
Proof.
  intros H1 H2 H3. (unfold wg_index, umul, uadd, ures, bind; cbn [run]).
  replace ((0 <=? h * y) && (h * y <? usz T)) with true by lia.
  replace ((0 <=? x * w) && (x * w <? usz T)) with true by lia.
  replace ((0 <=? h * y + x * w) && (h * y + x * w <? usz T)) with true by lia. congruence.
Qed.

(** What the vector kernel needs: [bytes] per register, [px] pixels of [d] bytes. *)
Definition vector_end (d stride h v bytes px : Z) : Z := stride * (h - 1) + d * (v - px) + bytes.

Definition needs_1_2 (d bytes px : Z) (k : kernel_1_2) : Prop := forall w h ss s p ds dst,
  s_plane s = Src p -> s_off s = 0 -> 0 <= ss -> 0 < w -> w mod px = 0 -> 0 < h -> h mod 2 = 0 ->
  ss * (h - 1) + d * w < usz T ->
  demands all (vector_end d ss h w bytes px <= zlen (nth p SB [])) (k w h ss s ds dst).
Definition needs_1_3 (d bytes px : Z) (sub : Z) (k : kernel_1_3) : Prop := forall w h ss s p ds dst,
  s_plane s = Src p -> s_off s = 0 -> 0 <= ss -> 0 < w -> w mod px = 0 -> 0 < h -> h mod sub = 0 ->
  ss * (h - 1) + d * w < usz T ->
  demands all (vector_end d ss h w bytes px <= zlen (nth p SB [])) (k w h ss s ds dst).

Lemma demands_weaken {A} (G : A -> Prop) (P P' : Prop) c : demands G P c -> (P -> P') -> demands G P' c.
Proof. intros H HP m v m' Hm E Hv. apply HP. eapply H; eauto. Qed.

Lemma wg_last x y w h : 0 <= x -> 0 <= w -> 0 <= h -> 0 <= y -> h * y + x * w < usz T ->
  forall m v m', wg_index x y w h T m = Ok v m' -> v = h * y + x * w.
Proof. intros ? ? ? ? ? m v m'. apply wg_value; nia. Qed.

Lemma keeps_yuv_4x smp src a b y0 y1 y2 uv o w1 w2 : keeps (Sse2.rgb_to_yuv_4x smp src a b y0 y1 y2 uv o w1 w2).
Proof. unfold Sse2.rgb_to_yuv_4x. cbv zeta. keeps. Qed.
Lemma keeps_i420_4x smp src a b y0 y1 y2 u o v o' w1 w2 : keeps (Sse2.rgb_to_i420_4x smp src a b y0 y1 y2 u o v o' w1 w2).
Proof. unfold Sse2.rgb_to_i420_4x. cbv zeta. keeps. Qed.
Lemma keeps_i444_4x smp src a y0 y1 u o v o' w1 w2 w3 : keeps (Sse2.rgb_to_i444_4x smp src a y0 y1 u o v o' w1 w2 w3).
Proof. unfold Sse2.rgb_to_i444_4x. cbv zeta. keeps. Qed.
Lemma keeps_yuv_8x smp src a b y0 y1 y2 uv o w1 w2 : keeps (Avx2.rgb_to_yuv_8x smp src a b y0 y1 y2 uv o w1 w2).
Proof. unfold Avx2.rgb_to_yuv_8x. cbv zeta. keeps. Qed.
Lemma keeps_i420_8x smp src a b y0 y1 y2 u o v o' w1 w2 : keeps (Avx2.rgb_to_i420_8x smp src a b y0 y1 y2 u o v o' w1 w2).
Proof. unfold Avx2.rgb_to_i420_8x. cbv zeta. keeps. Qed.
Lemma keeps_i444_8x smp src a y0 y1 u o v o' w1 w2 w3 : keeps (Avx2.rgb_to_i444_8x smp src a y0 y1 u o v o' w1 w2 w3).
Proof. unfold Avx2.rgb_to_i444_8x. cbv zeta. keeps. Qed.

Ltac keeps_all := keeps; first [apply keeps_yuv_4x|apply keeps_i420_4x|apply keeps_i444_4x|apply keeps_yuv_8x|apply keeps_i420_8x|apply keeps_i444_8x].

Lemma needs_nv12_sse2 smp d c : 0 <= d -> needs_1_2 d 16 4  (Sse2.rgb_to_nv12_sse2 smp d c).
Proof.
  intros Hd w h ss s p [y_stride uv_stride] [yb uvb] Hp Ho Hss Hw Hwm Hh Hhm Hlt. unfold Sse2.rgb_to_nv12_sse2.
  cbv zeta. change Sse2.RGB_TO_YUV_WAVES with 4. assert (Dq : d * (w - 4) = (w / 4 - 1) * (d * 4)) by nia.
  apply demands_for with (j := h / 2 - 1); [intros i; keeps_all|lia|].
  apply demands_for with (j := w / 4 - 1); [intros i; keeps_all|lia|].
  apply demands_skip; [apply keeps_wg|intros i0].
  apply demands_after with (Q := fun i => i = ss * (h - 1) + d * (w - 4)); [apply keeps_wg| |intros i1 ->].
  { replace (2 * (h / 2 - 1) + 1) with (h - 1) by lia. rewrite Dq. apply wg_last; nia. }
  do 3 (apply demands_skip; [apply keeps_wg|intros ?]).
  unfold Sse2.rgb_to_yuv_4x. apply demands_skip; [apply keeps_ldn|intros l0].
  destruct (Sse2.unpack_ui8x3_i16x2_4x smp l0). apply demands_skip; [apply keeps_stn|intros _].
  apply demands_now. eapply demands_weaken; [apply demands_ldn; [exact Hp|lia]|]. unfold vector_end. lia.
Qed.
Lemma needs_i420_sse2 smp d c : 0 <= d -> needs_1_3 d 16 4 2 (Sse2.rgb_to_i420_sse2 smp d c).
Proof.
  intros Hd w h ss s p [[y_stride u_stride] v_stride] [[yb ub] vb] Hp Ho Hss Hw Hwm Hh Hhm Hlt. unfold Sse2.rgb_to_i420_sse2.
  cbv zeta. change Sse2.RGB_TO_YUV_WAVES with 4. assert (Dq : d * (w - 4) = (w / 4 - 1) * (d * 4)) by nia.
  apply demands_for with (j := h / 2 - 1); [intros i; keeps_all|lia|].
  apply demands_for with (j := w / 4 - 1); [intros i; keeps_all|lia|].
  apply demands_skip; [apply keeps_wg|intros i0].
  apply demands_after with (Q := fun i => i = ss * (h - 1) + d * (w - 4)); [apply keeps_wg| |intros i1 ->].
  { replace (2 * (h / 2 - 1) + 1) with (h - 1) by lia. rewrite Dq. apply wg_last; nia. }
  do 4 (apply demands_skip; [apply keeps_wg|intros ?]).
  unfold Sse2.rgb_to_i420_4x. apply demands_skip; [apply keeps_ldn|intros l0].
  destruct (Sse2.unpack_ui8x3_i16x2_4x smp l0). apply demands_skip; [apply keeps_stn|intros _].
  apply demands_now. eapply demands_weaken; [apply demands_ldn; [exact Hp|lia]|]. unfold vector_end. lia.
Qed.
Lemma needs_i444_sse2 smp d c : 0 <= d -> needs_1_3 d 16 4 1 (Sse2.rgb_to_i444_sse2 smp d c).
Proof.
  intros Hd w h ss s p [[y_stride u_stride] v_stride] [[yb ub] vb] Hp Ho Hss Hw Hwm Hh Hhm Hlt. unfold Sse2.rgb_to_i444_sse2.
  cbv zeta. change Sse2.RGB_TO_YUV_WAVES with 4. assert (Dq : d * (w - 4) = (w / 4 - 1) * (d * 4)) by nia.
  apply demands_for with (j := h - 1); [intros i; keeps_all|lia|].
  apply demands_for with (j := w / 4 - 1); [intros i; keeps_all|lia|].
  apply demands_after with (Q := fun i => i = ss * (h - 1) + d * (w - 4)); [apply keeps_wg| |intros i1 ->].
  { rewrite Dq. apply wg_last; nia. }
  do 3 (apply demands_skip; [apply keeps_wg|intros ?]).
  unfold Sse2.rgb_to_i444_4x. apply demands_now. eapply demands_weaken; [apply demands_ldn; [exact Hp|lia]|]. unfold vector_end. lia.
Qed.
Lemma needs_nv12_avx2 smp d c : 0 <= d -> needs_1_2 d 32 8  (Avx2.rgb_to_nv12_avx2 smp d c).
Proof.
  intros Hd w h ss s p [y_stride uv_stride] [yb uvb] Hp Ho Hss Hw Hwm Hh Hhm Hlt. unfold Avx2.rgb_to_nv12_avx2.
  cbv zeta. change Avx2.RGB_TO_YUV_WAVES with 8. assert (Dq : d * (w - 8) = (w / 8 - 1) * (d * 8)) by nia.
  apply demands_for with (j := h / 2 - 1); [intros i; keeps_all|lia|].
  apply demands_for with (j := w / 8 - 1); [intros i; keeps_all|lia|].
  apply demands_skip; [apply keeps_wg|intros i0].
  apply demands_after with (Q := fun i => i = ss * (h - 1) + d * (w - 8)); [apply keeps_wg| |intros i1 ->].
  { replace (2 * (h / 2 - 1) + 1) with (h - 1) by lia. rewrite Dq. apply wg_last; nia. }
  do 3 (apply demands_skip; [apply keeps_wg|intros ?]).
  unfold Avx2.rgb_to_yuv_8x. apply demands_skip; [apply keeps_ldn|intros l0].
  destruct (Avx2.unpack_ui8x3_i16x2_8x smp l0). apply demands_skip; [apply keeps_stn|intros _].
  apply demands_now. eapply demands_weaken; [apply demands_ldn; [exact Hp|lia]|]. unfold vector_end. lia.
Qed.
Lemma needs_i420_avx2 smp d c : 0 <= d -> needs_1_3 d 32 8 2 (Avx2.rgb_to_i420_avx2 smp d c).
Proof.
  intros Hd w h ss s p [[y_stride u_stride] v_stride] [[yb ub] vb] Hp Ho Hss Hw Hwm Hh Hhm Hlt. unfold Avx2.rgb_to_i420_avx2.
  cbv zeta. change Avx2.RGB_TO_YUV_WAVES with 8. assert (Dq : d * (w - 8) = (w / 8 - 1) * (d * 8)) by nia.
  apply demands_for with (j := h / 2 - 1); [intros i; keeps_all|lia|].
  apply demands_for with (j := w / 8 - 1); [intros i; keeps_all|lia|].
  apply demands_skip; [apply keeps_wg|intros i0].
  apply demands_after with (Q := fun i => i = ss * (h - 1) + d * (w - 8)); [apply keeps_wg| |intros i1 ->].
  { replace (2 * (h / 2 - 1) + 1) with (h - 1) by lia. rewrite Dq. apply wg_last; nia. }
  do 4 (apply demands_skip; [apply keeps_wg|intros ?]).
  unfold Avx2.rgb_to_i420_8x. apply demands_skip; [apply keeps_ldn|intros l0].
  destruct (Avx2.unpack_ui8x3_i16x2_8x smp l0). apply demands_skip; [apply keeps_stn|intros _].
  apply demands_now. eapply demands_weaken; [apply demands_ldn; [exact Hp|lia]|]. unfold vector_end. lia.
Qed.
Lemma needs_i444_avx2 smp d c : 0 <= d -> needs_1_3 d 32 8 1 (Avx2.rgb_to_i444_avx2 smp d c).
Proof.
  intros Hd w h ss s p [[y_stride u_stride] v_stride] [[yb ub] vb] Hp Ho Hss Hw Hwm Hh Hhm Hlt. unfold Avx2.rgb_to_i444_avx2.
  cbv zeta. change Avx2.RGB_TO_YUV_WAVES with 8. assert (Dq : d * (w - 8) = (w / 8 - 1) * (d * 8)) by nia.
  apply demands_for with (j := h - 1); [intros i; keeps_all|lia|].
  apply demands_for with (j := w / 8 - 1); [intros i; keeps_all|lia|].
  apply demands_after with (Q := fun i => i = ss * (h - 1) + d * (w - 8)); [apply keeps_wg| |intros i1 ->].
  { rewrite Dq. apply wg_last; nia. }
  do 3 (apply demands_skip; [apply keeps_wg|intros ?]).
  unfold Avx2.rgb_to_i444_8x. apply demands_now. eapply demands_weaken; [apply demands_ldn; [exact Hp|lia]|]. unfold vector_end. lia.
Qed.

(** ** Vector part and scalar part *)
Lemma vp3_mod px w : px = 4 \/ px = 8 -> fwd_vector_part px 3 w mod px = 0 /\ fwd_vector_part px 3 w = 3 * px * (w / (3 * px)).
Proof. unfold fwd_vector_part. change (3 =? 3) with true. cbv iota. intros [-> | ->]; lia. Qed.

Lemma needs_hyb_1_2 d bytes px vp kv ks : 0 <= d -> needs_1_2 d bytes px kv ->
  forall w h ss s p ds dst, let v := vp w in v mod px = 0 -> v <= w ->
  s_plane s = Src p -> s_off s = 0 -> 0 <= ss -> 0 < v -> 0 < h -> h mod 2 = 0 -> ss * (h - 1) + d * w < usz T ->
  demands all (vector_end d ss h v bytes px <= zlen (nth p SB [])) (hyb_1_2 vp d kv ks w h ss s ds dst).
Proof.
  intros Hd Hk w h ss s p ds dst v E1 E2 Hp Ho Hss Hv Hh Hm Hlt. unfold hyb_1_2. cbv zeta. fold v.
  apply demands_now. replace (0 <? v) with true by lia. apply Hk; auto. nia.
Qed.
Lemma needs_hyb_1_3 d bytes px sub vp kv ks : 0 <= d -> needs_1_3 d bytes px sub kv ->
  forall w h ss s p ds dst, let v := vp w in v mod px = 0 -> v <= w ->
  s_plane s = Src p -> s_off s = 0 -> 0 <= ss -> 0 < v -> 0 < h -> h mod sub = 0 -> ss * (h - 1) + d * w < usz T ->
  demands all (vector_end d ss h v bytes px <= zlen (nth p SB [])) (hyb_1_3 vp sub d kv ks w h ss s ds dst).
Proof.
  intros Hd Hk w h ss s p ds dst v E1 E2 Hp Ho Hss Hv Hh Hm Hlt. unfold hyb_1_3. cbv zeta. fold v.
  apply demands_now. replace (0 <? v) with true by lia. apply Hk; auto. nia.
Qed.

(** ** The wrappers *)
Definition accepted (b : bool) : Prop := b = true.
Lemma demands_accepted_false P : demands accepted P (ret false).
Proof. intros m v m' _ [= <- _] E. discriminate E. Qed.
Lemma demands_if {A} (b : bool) (G : A -> Prop) P c d : demands G P c -> demands G P d -> demands G P (if b then c else d).
Proof. destruct b; auto. Qed.
Lemma aidx_value {A} (a : arr A) i m v m' : aidx a i T m = Ok v m' -> nth_error (adata a) (Z.to_nat i) = Some v.
Proof.
  unfold aidx. destruct (_ && _); [|discriminate]. destruct (nth_error _ _); [|discriminate]. intros [= <- _]. reflexivity.
Qed.
Lemma umul_value a b m v m' : 0 <= a * b < usz T -> umul a b T m = Ok v m' -> v = a * b.
Proof. (unfold umul, ures; cbn [run]). intros H. replace (_ && _) with true by lia. congruence. Qed.

Lemma needs_rgb_nv12_w P d k w h l1 ss sb l2 ds db s0 s : 0 < w -> 0 < h -> 0 <= d * w < usz T ->
  (forall x, nth_error (adata ss) 0 = Some x -> x = s0) -> (forall x, nth_error (adata sb) 0 = Some x -> x = s) ->
  (forall ds dst, demands all P (k w h (compute_stride s0 (d * w)) s ds dst)) ->
  demands accepted P (rgb_nv12_w d k w h l1 ss sb l2 ds db).
Proof.
  intros Hw Hh Hrow Es Eb Hk. unfold rgb_nv12_w.
  replace ((w =? 0) || (h =? 0)) with false by lia.
  apply demands_if; [apply demands_accepted_false|]. cbv zeta.
  apply demands_after with (Q := fun v => v = d * w); [apply keeps_ures|intros mm vv mm0; apply umul_value; auto|intros ? ->].
  apply demands_after with (Q := fun v => v = s0); [apply keeps_aidx|intros mm vv mm0 E; apply aidx_value in E; change (Z.to_nat 0) with 0%nat in E; auto|intros ? ->].
  do 2 (apply demands_skip; [apply keeps_aidx|intros ?]).
  apply demands_after with (Q := fun v => v = s); [apply keeps_aidx|intros mm vv mm0 E; apply aidx_value in E; change (Z.to_nat 0) with 0%nat in E; auto|intros ? ->].
  apply demands_skip; [keeps|intros [[yb uvb]|]]; [|apply demands_accepted_false].
  apply demands_skip; [keeps|intros bad]. apply demands_if; [apply demands_accepted_false|].
  apply demands_now. apply Hk.
Qed.

Lemma needs_rgb_i4xx_w P sub d k w h l1 ss sb l2 ds db s0 s : 0 < w -> 0 < h -> 0 <= d * w < usz T ->
  (forall x, nth_error (adata ss) 0 = Some x -> x = s0) -> (forall x, nth_error (adata sb) 0 = Some x -> x = s) ->
  (forall ds dst, demands all P (k w h (compute_stride s0 (d * w)) s ds dst)) ->
  demands accepted P (rgb_i4xx_w sub d k w h l1 ss sb l2 ds db).
Proof.
  intros Hw Hh Hrow Es Eb Hk. unfold rgb_i4xx_w.
  replace ((w =? 0) || (h =? 0)) with false by lia.
  apply demands_if; [apply demands_accepted_false|]. cbv zeta.
  apply demands_after with (Q := fun v => v = d * w); [apply keeps_ures|intros mm vv mm0; apply umul_value; auto|intros ? ->].
  apply demands_after with (Q := fun v => v = s0); [apply keeps_aidx|intros mm vv mm0 E; apply aidx_value in E; change (Z.to_nat 0) with 0%nat in E; auto|intros ? ->].
  do 3 (apply demands_skip; [apply keeps_aidx|intros ?]).
  apply demands_after with (Q := fun v => v = s); [apply keeps_aidx|intros mm vv mm0 E; apply aidx_value in E; change (Z.to_nat 0) with 0%nat in E; auto|intros ? ->].
  do 3 (apply demands_skip; [apply keeps_aidx|intros ?]).
  apply demands_skip; [keeps|intros bad]. apply demands_if; [apply demands_accepted_false|].
  apply demands_now. apply Hk.
Qed.

(** ** The converters *)
Definition register (set : instruction_set) : Z := match set with CpuInfo.Avx2 => 32 | _ => 16 end.
Definition wave (set : instruction_set) : Z := match set with CpuInfo.Avx2 => 8 | _ => 4 end.

Lemma converter_needs set dpf cs w h l1 ss sb l2 ds db s0 s p : set = CpuInfo.Sse2 \/ set = CpuInfo.Avx2 ->
  dpf = Nv12 \/ dpf = I420 \/ dpf = I444 -> (dpf <> I444 -> h mod 2 = 0) ->
  (forall x, nth_error (adata ss) 0 = Some x -> x = s0) -> (forall x, nth_error (adata sb) 0 = Some x -> x = s) -> s_plane s = Src p -> s_off s = 0 ->
  let stride := compute_stride s0 (3 * w) in let v := fwd_vector_part (wave set) 3 w in
  0 <= stride -> 0 < v -> 0 < w -> 0 < h -> stride * (h - 1) + 3 * w < usz T ->
  demands accepted (vector_end 3 stride h v (register set) (wave set) <= zlen (nth p SB []))
    (converters set (Rgb_yuv Bgr dpf cs) w h l1 ss sb l2 ds db).
Proof.
  intros Hset Hd Hm Es Eb Hp Ho stride v Hs Hv Hw Hh Hlt.
  assert (0 <= 3 * w < usz T) by (assert (0 <= stride * (h - 1)) by nia; lia).
  assert (Vle : forall px, px = 4 \/ px = 8 -> fwd_vector_part px 3 w <= w).
  { intros px Hpx. destruct (vp3_mod px w Hpx) as [_ ->]. destruct Hpx as [-> | ->]; lia. }
  destruct Hset as [-> | ->]; destruct Hd as [-> | [-> | ->]]; cbn [converters sse2_converter avx2_converter sampler_of pf_depth register wave] in *;
    unfold Sse2.sse2_rgb_i444, Sse2.sse2_rgb_i420, Sse2.sse2_rgb_nv12, Avx2.avx2_rgb_i444, Avx2.avx2_rgb_i420, Avx2.avx2_rgb_nv12;
    (first [apply needs_rgb_nv12_w with (s0 := s0) (s := s)|apply needs_rgb_i4xx_w with (s0 := s0) (s := s)];
    [exact Hw|exact Hh|assumption|exact Es|exact Eb|intros ds' dst']).
  - apply needs_hyb_1_2; auto; [lia|apply needs_nv12_sse2; lia|apply vp3_mod; auto|apply Hm; discriminate].
  - apply needs_hyb_1_3; auto; [lia|apply needs_i420_sse2; lia|apply vp3_mod; auto|apply Hm; discriminate].
  - apply needs_hyb_1_3; auto; [lia|apply needs_i444_sse2; lia|apply vp3_mod; auto|apply Z.mod_1_r].
  - apply needs_hyb_1_2; auto; [lia|apply needs_nv12_avx2; lia|apply vp3_mod; auto|apply Hm; discriminate].
  - apply needs_hyb_1_3; auto; [lia|apply needs_i420_avx2; lia|apply vp3_mod; auto|apply Hm; discriminate].
  - apply needs_hyb_1_3; auto; [lia|apply needs_i444_avx2; lia|apply vp3_mod; auto|apply Z.mod_1_r].
Qed.
End Needs.
