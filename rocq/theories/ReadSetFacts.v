(** Which bytes the converters read: vector registers, the two parts of a picture, the wrappers. *)
From Coq Require Import ZArith List Bool Lia ZifyBool ZifyNat.
Import ListNotations.
From Verif Require Import Base Fmt Dispatch Common Scalar Wrappers Simd Vector CpuInfo Lib Sets Spec SetSpec ApiSpec Api LibFacts Trace ReadSpec ReadFacts.
From Verif Require Sse2 Avx2 Neon.
Open Scope Z_scope.
Ltac Zify.zify_post_hook ::= Z.div_mod_to_equations.

Section Sets.
Variable T : target.

(** ** Vector registers *)
Ltac strip so H :=
  repeat (cbv beta zeta iota; lazymatch goal with
  | |- sees _ _ (bind (ldn _ _ _) _) _ => apply sees_bind; [apply sees_ldn; intros ? ?|intros ?]
  | |- sees _ _ (bind (stn _ _ _) _) _ => apply sees_bind; [apply sees_stn|intros _]
  | |- sees _ _ (bind (uadd _ _) _) _ => apply sees_ures; intros _
  | |- sees _ _ (match Avx2.bgr_to_rgb_32x ?a ?b ?c with _ => _ end) _ => destruct (Avx2.bgr_to_rgb_32x a b c) as [[? ?] ?]
  | |- sees _ _ (match Avx2.rgb_to_bgra_32x ?a ?b ?c with _ => _ end) _ => destruct (Avx2.rgb_to_bgra_32x a b c) as [[[? ?] ?] ?]
  | |- sees _ _ (ret _) _ => apply sees_ret; cbn [fst]; lia
  | |- _ (s_plane ?s) (s_off ?s + ?e) => replace e with (so + (e - so)) by ring; apply H; lia
  end).
Definition strides_on (S : plane -> Z -> Prop) (s : slice) (n sd : Z) (f : Z * Z -> M (Z * Z)) :=
  forall so do_, run_of S s so (n * sd) -> sees T S (f (so, do_)) (fun st_ => fst st_ = so + n * sd).
Lemma on_sse2_rgb S s d : strides_on S s 16 3 (Sse2.rgb_to_bgra_step16 s d).
Proof. intros so do_ H. unfold Sse2.rgb_to_bgra_step16. change Sse2.LANE_COUNT with 16. strip so H. Qed.
Lemma on_avx2_rgb S s d : strides_on S s 32 3 (Avx2.rgb_to_bgra_step32 s d).
Proof. intros so do_ H. unfold Avx2.rgb_to_bgra_step32. change Avx2.LANE_COUNT with 32. strip so H. Qed.
Lemma on_avx2_bgr S s d : strides_on S s 32 3 (Avx2.bgr_to_rgb_step32 s d).
Proof. intros so do_ H. unfold Avx2.bgr_to_rgb_step32. change Avx2.LANE_COUNT with 32. strip so H. Qed.
Lemma on_neon S s d m out : strides_on S s 16 (Z.of_nat m) (Neon.reorder_step16 m out s d).
Proof. intros so do_ H. unfold Neon.reorder_step16. change Neon.LANE_COUNT with 16. strip so H. Qed.

Lemma strips S s n sd w f so do_ : 0 < n -> 0 <= sd -> 0 < w -> w mod n = 0 -> strides_on S s n sd f -> run_of S s so (sd * w) ->
  sees T S (loop (Z.to_nat ((w + (n - 1)) / n)) (so, do_) f) (fun st_ => fst st_ = so + sd * w).
Proof.
  intros N D W M F R.
  assert (E : w = n * (w / n)) by (pose proof (Z.div_mod w n); lia).
  assert (E' : (w + (n - 1)) / n = w / n).
  { rewrite E at 1. replace (n * (w / n) + (n - 1)) with ((n - 1) + (w / n) * n) by lia. rewrite Z.div_add by lia. rewrite Z.div_small by lia. lia. }
  assert (Q : 0 <= w / n) by (apply Z.div_pos; lia). rewrite E'. set (q := w / n) in *. clearbody q. clear E' M.
  eapply sees_mono; [intros p a B; exact B| |apply (sees_loop T S _ f (fun i st_ => fst st_ = so + i * (n * sd)))].
  - cbv beta. intros st_ ->. rewrite Z2Nat.id by lia. subst w. ring.
  - intros i [so' do'] Hi O. cbn [fst] in O. subst so'. eapply sees_mono; [intros p a B; exact B| |apply F].
    + cbv beta. intros st_ ->. ring.
    + eapply run_part; [exact R|nia|]. subst w. rewrite Z2Nat.id in Hi by lia.
      replace (sd * (n * q)) with (n * sd * q) by ring. assert (0 <= n * sd) by nia. nia.
  - cbn [fst]. ring.
Qed.
Lemma in_either s ss h row S : forall p a, band s ss h row p a -> either (band s ss h row) S p a.
Proof. intros p a B. left. exact B. Qed.
Lemma see_sse2_rgb_bgra : see_1_1 T (fun w => w mod 16 = 0) 3 exact_rows Sse2.rgb_to_bgra_sse2.
Proof.
  intros w h ss s ds d P W. unfold Sse2.rgb_to_bgra_sse2. do 4 (apply sees_ures; intros _).
  eapply sees_then; [apply (sees_loop T _ _ _ (fun i st_ => fst st_ = i * ss))|intros; exact I]; [|cbn [fst]; lia].
  intros i [so do_] Hi O. cbn [fst] in O. subst so.
  eapply sees_then; [apply (strips _ s 16 3 w); [lia|lia|exact W|exact P|apply on_sse2_rgb|]|].
  - apply row_run' with (h := h); [apply in_either|lia].
  - intros [so do2] E. cbn [fst] in E. do 2 (apply sees_ures; intros _). apply sees_ret. cbn [fst]. lia.
Qed.
Lemma see_avx2_rgb_bgra : see_1_1 T (fun w => w mod 32 = 0) 3 exact_rows Avx2.rgb_to_bgra_avx2.
Proof.
  intros w h ss s ds d P W. unfold Avx2.rgb_to_bgra_avx2. do 4 (apply sees_ures; intros _).
  eapply sees_then; [apply (sees_loop T _ _ _ (fun i st_ => fst st_ = i * ss))|intros; exact I]; [|cbn [fst]; lia].
  intros i [so do_] Hi O. cbn [fst] in O. subst so.
  eapply sees_then; [apply (strips _ s 32 3 w); [lia|lia|exact W|exact P|apply on_avx2_rgb|]|].
  - apply row_run' with (h := h); [apply in_either|lia].
  - intros [so do2] E. cbn [fst] in E. do 2 (apply sees_ures; intros _). apply sees_ret. cbn [fst]. lia.
Qed.
Lemma see_avx2_bgr_rgb : see_1_1 T (fun w => w mod 32 = 0) 3 exact_rows Avx2.bgr_to_rgb_avx2.
Proof.
  intros w h ss s ds d P W. unfold Avx2.bgr_to_rgb_avx2. apply sees_for. intros i Hi. do 2 (apply sees_ures; intros _).
  eapply sees_then; [apply (strips _ s 32 3 w); [lia|lia|exact W|exact P|apply on_avx2_bgr|]|intros; exact I].
  apply row_run with (h := h); [apply in_either|exact Hi].
Qed.
Lemma see_neon_reorder m out : see_1_1 T (fun w => w mod 16 = 0) (Z.of_nat m) exact_rows (Neon.reorder_neon m out).
Proof.
  intros w h ss s ds d P W. unfold Neon.reorder_neon. apply sees_for. intros i Hi. do 2 (apply sees_ures; intros _).
  eapply sees_then; [apply (strips _ s 16 (Z.of_nat m) w); [lia|lia|exact W|exact P|apply on_neon|]|intros; exact I].
  apply row_run with (h := h); [apply in_either|exact Hi].
Qed.
Lemma see_avx2_bgra_rgb : see_1_1 T any 4 exact_rows Avx2.bgra_to_rgb_avx2.
Proof.
  intros w h ss s ds d _ W. unfold Avx2.bgra_to_rgb_avx2. do 4 (apply sees_ures; intros _). cbv zeta. change Avx2.LANE_COUNT with 32.
  rewrite lower_32, lower_8 by lia.
  replace ((32 * (w / 32) + 31) / 32) with (w / 32) by lia.
  set (S := either _ _).
  assert (R : forall i, 0 <= i < h -> run_of S s (ss * i) (4 * w)) by (intros i Hi; apply row_run with (h := h); [apply in_either|exact Hi]).
  clearbody S. apply sees_bind.
  - apply sees_for. intros i Hi. do 6 (apply sees_ures; intros _). replace (4 * w + (ss - 4 * w)) with ss by ring. specialize (R i Hi).
    eapply sees_then; [apply (carries_loop T S s 32 4 0 _ _ 0 _ _ (carries_avx2_32 T S s d)); [lia|lia|]|].
    + eapply run_part; [exact R|lia|]. rewrite Z2Nat.id by lia. destruct (0 <? _); lia.
    + intros [[x so'] do'] [X O]. cbn [fst snd] in *. rewrite Z2Nat.id in X, O by lia. subst x so'.
      eapply sees_then; [apply (carries_loop T S s 8 4 0 _ _ _ _ _ (carries_avx2_8 T S s d)); [lia|lia|]|intros; exact I].
      eapply run_part; [exact R|lia|]. rewrite Z2Nat.id by lia. destruct (0 <? _); lia.
  - intros _. destruct (8 * (w / 8) =? w) eqn:E; [exact I|].
    eapply sees_then; [apply (sees_loop T _ _ _ (fun i st_ => fst st_ = i * ss))|intros; exact I]; [|cbn [fst]; lia].
    intros i [so do_] Hi O. cbn [fst] in O. subst so. specialize (R i ltac:(lia)).
    apply sees_bind.
    + apply sees_for_from. intros y Y. rewrite Z2Nat.id in Y by lia. unfold Avx2.bgra_to_rgb_rest1.
      repeat lazymatch goal with
      | |- sees _ _ (bind (ld _ _) _) _ => apply sees_bind; [apply sees_ld|intros ?]
      | |- sees _ _ (bind (st _ _ _) _) _ => apply sees_bind; [apply sees_st|intros _]
      | |- sees _ _ (bind _ _) _ => apply sees_ures; intros _
      | |- sees _ _ (st _ _ _) _ => apply sees_st
      | |- S (s_plane ?s) (s_off ?s + ?e) => replace e with (ss * i + (e - ss * i)) by ring; apply R; lia
      end.
    + intros _. do 6 (apply sees_ures; intros _). apply sees_ret. cbn [fst]. ring.
Qed.

(** ** Vector part and scalar part *)
Definition divides_width (vp : Z -> Z) (P : Z -> Prop) := forall w, 0 < w -> 0 <= vp w <= w /\ P (vp w).
Lemma sees_from S {B : Type} s i (k : slice -> M B) Q : sees T S (k (Slice (s_plane s) (s_off s + i) (s_len s - i))) Q ->
  sees T S (bind (slice_from s i) k) Q.
Proof. intros H. unfold slice_from. destruct (_ && _); [exact H|exact I]. Qed.
Lemma band_more s ss h row h' row' p a : h <= h' -> row <= row' -> band s ss h row p a -> band s ss h' row' p a.
Proof. intros H R (E & y & j & Y & J & A). split; [exact E|]. exists y, j. split; [lia|]. split; [lia|exact A]. Qed.
Lemma band_from s i l ss h row h' row' p a : 0 <= i -> h <= h' -> i + row <= row' ->
  band (Slice (s_plane s) (s_off s + i) l) ss h row p a -> band s ss h' row' p a.
Proof.
  intros I H R (E & y & j & Y & J & A). cbn [s_plane s_off] in *. split; [exact E|]. exists y, (i + j). split; [lia|]. split; [lia|lia].
Qed.
Lemma either_mono (S1 S2 S1' S2' : plane -> Z -> Prop) : (forall p a, S1 p a -> S1' p a) -> (forall p a, S2 p a -> S2' p a) ->
  forall p a, either S1 S2 p a -> either S1' S2' p a.
Proof. intros H1 H2 p a [B|B]; [left; auto|right; auto]. Qed.
Lemma sees_sub {A} (S S' : plane -> Z -> Prop) (c : M A) (Q : A -> Prop) : (forall p a, S p a -> S' p a) -> sees T S c Q -> sees T S' c Q.
Proof. intros H. apply sees_mono; auto. Qed.

Ltac parts D W :=
  destruct (D _ W) as [L Pv]; cbv zeta; apply sees_bind; [destruct (_ <? _) eqn:Lv; [|exact I]|intros _; destruct (_ <? _) eqn:Ls; [|exact I]; apply sees_ures; intros _].
Lemma see_hyb_1_2 vp d o sl kv ks : 0 < d -> divides_width vp any -> see_1_2 T d o kv -> see_1_2 T d none ks ->
  (forall w, 0 < w -> 0 < vp w -> d * vp w + o (vp w) <= d * w + sl w) -> (forall w, 0 < w -> 0 <= sl w) ->
  see_1_2 T d sl (hyb_1_2 vp d kv ks).
Proof.
  intros Hd D V K B N w h ss s ds dd W. unfold hyb_1_2. specialize (B w W). specialize (N w W). parts D W.
  - eapply sees_sub; [|apply V; lia]. intros p a. apply band_more; lia.
  - do 3 apply sees_from. eapply sees_sub; [|apply K; lia]. unfold none. intros p a. apply band_from; nia.
Qed.
Lemma see_hyb_1_3 vp sub d o sl kv ks : 0 < d -> divides_width vp any -> see_1_3 T d o kv -> see_1_3 T d none ks ->
  (forall w, 0 < w -> 0 < vp w -> d * vp w + o (vp w) <= d * w + sl w) -> (forall w, 0 < w -> 0 <= sl w) ->
  see_1_3 T d sl (hyb_1_3 vp sub d kv ks).
Proof.
  intros Hd D V K B N w h ss s ds [[d0 d1] d2] W. unfold hyb_1_3. specialize (B w W). specialize (N w W). parts D W.
  - eapply sees_sub; [|apply V; lia]. intros p a. apply band_more; lia.
  - do 4 apply sees_from. eapply sees_sub; [|apply K; lia]. unfold none. intros p a. apply band_from; nia.
Qed.
Lemma see_hyb_2_1 vp d kv ks : divides_width vp any -> see_2_1 T kv -> see_2_1 T ks -> see_2_1 T (hyb_2_1 vp d kv ks).
Proof.
  intros D V K w h ys us yb ub ds dd W. unfold hyb_2_1. cbn [fst snd]. parts D W.
  - eapply sees_sub; [|apply V; lia]. apply either_mono; intros p a; apply band_more; lia.
  - do 3 apply sees_from. eapply sees_sub; [|apply K; lia]. apply either_mono; intros p a; apply band_from; lia.
Qed.
Lemma see_hyb_3_1 vp sub d kv ks : sub = 1 \/ sub = 2 -> divides_width vp any -> see_3_1 T sub kv -> see_3_1 T sub ks -> see_3_1 T sub (hyb_3_1 vp sub d kv ks).
Proof.
  intros Hs D V K w h ys us vs yb ub vb ds dd W. unfold hyb_3_1. parts D W.
  - eapply sees_sub; [|apply V; lia]. repeat apply either_mono; intros p a; apply band_more; destruct Hs as [-> | ->]; lia.
  - do 4 apply sees_from. eapply sees_sub; [|apply K; lia]. repeat apply either_mono; intros p a; apply band_from; destruct Hs as [-> | ->]; lia.
Qed.
Lemma see_hyb_1_1 vp P sd dd e e' kv ks : 0 < sd -> divides_width vp P -> see_1_1 T P sd exact_rows kv -> see_1_1 T any sd e ks ->
  (forall w ss, 0 < w -> vp w < w -> e (w - vp w) ss <= e' w ss) -> see_1_1 T any sd e' (hyb_1_1 vp sd dd kv ks).
Proof.
  intros Hd D V K E w h ss s ds d _ W. specialize (E w ss W). unfold hyb_1_1. parts D W.
  - eapply sees_sub; [|apply V; [exact Pv|lia]]. unfold exact_rows. intros p a [B|B]; left; revert B; apply band_more; nia.
  - apply sees_ures; intros _. do 2 apply sees_from. eapply sees_sub; [|apply K; [exact I|lia]]. apply either_mono; intros p a; apply band_from; nia.
Qed.

(** ** The wrappers *)
(** Buffer [i] is plane [i] of the source. *)
Definition plain (sb : arr slice) := forall i s, nth_error (adata sb) i = Some s -> s_plane s = Src i /\ s_off s = 0.
Definition at_ (n : nat) (o : Z) : slice := Slice (Src n) o 0.
Definition st (ss : arr Z) (i : Z) (row : Z) : Z := compute_stride (nth (Z.to_nat i) (adata ss) 0) row.
Lemma band_at s n o ss h row p a : s_plane s = Src n -> s_off s = o -> band s ss h row p a -> band (at_ n o) ss h row p a.
Proof. intros E <- (E' & B). split; [rewrite E', E; reflexivity|exact B]. Qed.
Lemma sees_aidx S {A B} (x : arr A) i (k : A -> M B) Q : (forall a, nth_error (adata x) (Z.to_nat i) = Some a -> sees T S (k a) Q) -> sees T S (bind (aidx x i) k) Q.
Proof. intros H. unfold aidx. destruct (_ && _); [|exact I]. destruct (nth_error _ _) as [a|] eqn:E; [exact (H a eq_refl)|exact I]. Qed.
Lemma sees_stride S {B} (ss : arr Z) i (k : Z -> M B) Q : sees T S (k (nth (Z.to_nat i) (adata ss) 0)) Q -> sees T S (bind (aidx ss i) k) Q.
Proof. intros H. apply sees_aidx. intros a E. rewrite (nth_error_nth _ _ 0 E) in H. exact H. Qed.
Lemma sees_orM S a b : sees T S a any -> sees T S b any -> sees T S (orM a b) any.
Proof. intros A B. unfold orM. apply sees_bind; [exact A|intros []; [exact I|exact B]]. Qed.
Lemma sees_oob_call S a b c d : sees T S (oob_call a b c d) any.
Proof. unfold oob_call. apply sees_ures. intros _. apply sees_oob. Qed.
Ltac wrap :=
  repeat (cbv beta zeta iota; lazymatch goal with
  | |- sees _ _ (if ?b then _ else _) _ => destruct b eqn:?
  | |- sees _ _ (ret _) _ => exact I
  | |- sees _ _ (bind (umul _ _) _) _ => apply sees_ures; intros _
  | |- sees _ _ (bind (@aidx Z _ _) _) _ => apply sees_stride
  | |- sees _ _ (bind (@aidx slice _ _) _) _ => apply sees_aidx; intros ? ?
  | |- sees _ _ (bind (orM _ _) _) _ => apply sees_bind; [repeat first [apply sees_orM|apply sees_oob_call]|intros ?]
  end).
Ltac known :=
  repeat match goal with P : plain ?sb, E : nth_error (adata ?sb) (Z.to_nat ?i) = Some ?s |- _ =>
    let E1 := fresh in let E2 := fresh in destruct (P _ _ E) as [E1 E2]; clear E end.
Definition packed_set (d o e w h : Z) (ss : arr Z) : plane -> Z -> Prop :=
  either (band (at_ 0 0) (st ss 0 (d * w)) h (d * w + o)) (band (at_ 0 0) (st ss 0 (d * w)) (h - 1) (d * w + e)).
Lemma see_rgb_rgb_w sd dd (e : Z -> Z -> Z) k w h l ss sb l' ds db : see_1_1 T any sd e k -> plain sb -> 0 <= w ->
  sees T (packed_set sd 0 (e w (st ss 0 (sd * w))) w h ss) (rgb_rgb_w sd dd k w h l ss sb l' ds db) any.
Proof.
  intros K P W. unfold rgb_rgb_w. wrap. known. apply sees_bind; [|intros _; exact I].
  eapply sees_sub; [|apply K; [exact I|lia]]. unfold packed_set. apply either_mono; intros p x B; rewrite ?Z.add_0_r;
    eapply band_at; [eassumption|eassumption|exact B|eassumption|eassumption|exact B].
Qed.
Lemma see_rgb_i4xx_w sub d sl k w h l ss sb l' ds db : see_1_3 T d sl k -> plain sb -> 0 <= w ->
  sees T (packed_set d (sl w) 0 w h ss) (rgb_i4xx_w sub d k w h l ss sb l' ds db) any.
Proof.
  intros K P W. unfold rgb_i4xx_w. wrap. known. apply sees_bind; [|intros _; exact I].
  eapply sees_sub; [|apply K; lia]. intros p x B. left. eapply band_at; [eassumption|eassumption|exact B].
Qed.
Lemma see_rgb_nv12_w d sl k w h l ss sb l' ds db : see_1_2 T d sl k -> plain sb -> 0 <= w ->
  sees T (packed_set d (sl w) 0 w h ss) (rgb_nv12_w d k w h l ss sb l' ds db) any.
Proof.
  intros K P W. unfold rgb_nv12_w. wrap; known.
  all: apply sees_bind; [wrap; unfold split_at; destruct (_ && _); exact I|intros [[yb uvb]|]; [|exact I]]; wrap.
  all: apply sees_bind; [|intros _; exact I]; eapply sees_sub; [|apply K; lia]; intros p x B; left; eapply band_at; [eassumption|eassumption|exact B].
Qed.
Definition planes_set (sub w h : Z) (ss : arr Z) : plane -> Z -> Prop :=
  either (band (at_ 0 0) (st ss 0 w) h w)
    (either (band (at_ 1 0) (st ss 1 (w / sub)) (h / sub) (w / sub)) (band (at_ 2 0) (st ss 2 (w / sub)) (h / sub) (w / sub))).
Lemma see_i4xx_rgb_w sub d k w h l ss sb l' ds db : see_3_1 T sub k -> plain sb -> 0 <= w ->
  sees T (planes_set sub w h ss) (i4xx_rgb_w sub d k w h l ss sb l' ds db) any.
Proof.
  intros K P W. unfold i4xx_rgb_w. wrap. known. apply sees_bind; [|intros _; exact I].
  eapply sees_sub; [|apply K; lia]. unfold planes_set.
  apply either_mono; [|apply either_mono]; intros p x B; (eapply band_at; [eassumption|eassumption|exact B]).
Qed.
Definition nv12_set (l w h : Z) (ss : arr Z) : plane -> Z -> Prop :=
  either (band (at_ 0 0) (st ss 0 w) h w)
    (if l =? 0 then band (at_ 0 (st ss 0 w * h)) (st ss 0 w) (h / 2) w else band (at_ (Z.to_nat l) 0) (st ss l w) (h / 2) w).
Lemma see_nv12_rgb_w d k w h l ss sb l' ds db : see_2_1 T k -> plain sb -> 0 <= w ->
  sees T (nv12_set l w h ss) (nv12_rgb_w d k w h l ss sb l' ds db) any.
Proof.
  intros K P W. unfold nv12_rgb_w. wrap. known.
  match goal with |- sees _ _ (bind (if _ then _ else ret (Some (?b0, ?b1))) _) _ =>
    apply (sees_then _ _ _ _ (fun r => match r with None => True | Some (yb, uvb) => s_plane yb = Src 0 /\ s_off yb = 0 /\
      s_plane uvb = Src (Z.to_nat l) /\ s_off uvb = if l =? 0 then st ss 0 w * h else 0 end)) end.
  - destruct (l =? 0) eqn:L; [|apply sees_ret; auto].
    apply sees_ures; intros _. destruct (_ <? _); [exact I|]. apply sees_ures; intros _. unfold split_at. destruct (_ && _); [|exact I].
    apply sees_pure, sees_ret. cbn [s_plane s_off]. replace l with 0 by lia. fold (st ss 0 w). repeat split; try assumption. lia.
  - intros [[yb uvb]|] H; [|exact I]. destruct H as (A1 & A2 & A3 & A4). wrap.
    apply sees_bind; [|intros _; exact I]. eapply sees_sub; [|apply K; lia]. unfold nv12_set. apply either_mono.
    + intros p x B; eapply band_at; [eassumption|eassumption|exact B].
    + intros p x B. destruct (l =? 0) eqn:L; [replace l with 0 in * by lia|]; (eapply band_at; [eassumption|eassumption|exact B]).
Qed.
End Sets.
