(** Which bytes the kernels read. *)
From Coq Require Import ZArith List Bool Lia ZifyBool ZifyNat.
Import ListNotations.
From Verif Require Import Base Fmt Dispatch Common Scalar Wrappers Simd Vector CpuInfo Lib Sets Spec SetSpec ApiSpec Api LibFacts Trace BigFacts ReadSpec.
From Verif Require Sse2 Avx2 Neon.
Open Scope Z_scope.
Ltac Zify.zify_post_hook ::= Z.div_mod_to_equations.

Definition twin (T T' : target) : Prop := usz T' = usz T /\ big T' = big T.

(** Unless it overflows, [c] only reads positions in [S] and asks for nothing in which targets of the
    same word size and byte order differ. *)
Fixpoint sees (T : target) (S : plane -> Z -> Prop) {A} (c : M A) (Q : A -> Prop) {struct c} : Prop :=
  match c with
  | Ret a => Q a
  | Raise _ => True
  | Bind c k => sees T S c (fun b => sees T S (k b) Q)
  | Ask k => (forall T', twin T T' -> k T' = k T) /\ sees T S (k T) Q
  | Usize r k => 0 <= r < usz T -> sees T S (k r) Q
  | Int32 _ k => forall v, sees T S (k v) Q
  | Read s i k => S (s_plane s) (s_off s + i) /\ forall v, sees T S (k v) Q
  | Write _ _ _ k => sees T S (k tt) Q
  end.

Lemma sees_mono {A} T (S S' : plane -> Z -> Prop) (c : M A) : forall P Q : A -> Prop, (forall p a, S p a -> S' p a) -> (forall a, P a -> Q a) ->
  sees T S c P -> sees T S' c Q.
Proof.
  induction c as [a|f|A B c IH k IHk|A k IH|A r k IH|A r k IH|A s i k IH|A s i v k IH]; intros P Q HS H; cbn [sees].
  - apply H.
  - auto.
  - apply IH; [exact HS|]. intros b. apply IHk; assumption.
  - intros [E K]. split; [exact E|]. revert K. apply IH; assumption.
  - intros K D. generalize (K D). apply IH; assumption.
  - intros K v. generalize (K v). apply IH; assumption.
  - intros [D K]. split; [apply HS; exact D|]. intros v. generalize (K v). apply IH; assumption.
  - apply IH; assumption.
Qed.

(** A run that ends well on a target that checks for overflow: the same run on any twin. *)
Lemma sees_sound {A} T S (c : M A) : checked T = true -> forall Q m a m', sees T S c Q -> run c T m = Ok a m' ->
  Q a /\ (forall p x, In (Reads p x) (fst (traced c T m)) -> S p x) /\
  forall T', twin T T' -> traced c T' m = traced c T m.
Proof.
  intros HC. induction c as [A a0|A f0|A B c IH k IHk|A k IH|A r k IH|A r k IH|A s i k IH|A s i v k IH]; intros Q m a m' H R; cbn [run sees traced] in *.
  - injection R as <- <-. split; [exact H|]. split; [intros p x []|reflexivity].
  - discriminate R.
  - pose proof (traced_pair T c m) as E. destruct (run c T m) as [b m1|f] eqn:Rc; [|discriminate R].
    destruct (IH _ _ _ _ H Rc) as (H1 & I1 & T1). destruct (IHk b Q m1 a m' H1 R) as (H2 & I2 & T2).
    split; [exact H2|]. split.
    + intros p x. rewrite E. pose proof (traced_pair T (k b) m1) as E'. destruct (traced (k b) T m1) as [l' r']. cbn [fst] in *.
      rewrite in_app_iff. intros [I|I]; auto.
    + intros T' W. rewrite (T1 T' W). rewrite E. rewrite (T2 T' W). reflexivity.
  - destruct H as [E H]. destruct (IH T Q m a m' H R) as (H1 & I1 & T1). split; [exact H1|]. split; [exact I1|].
    intros T' W. rewrite (E T' W). apply T1. exact W.
  - destruct ((0 <=? r) && (r <? usz T)) eqn:D; [|rewrite HC in R; discriminate R].
    destruct (IH r Q m a m' (H ltac:(lia)) R) as (H1 & I1 & T1). split; [exact H1|]. split; [exact I1|].
    intros T' [W W']. rewrite W, D. apply T1. split; assumption.
  - destruct ((- 2 ^ 31 <=? r) && (r <? 2 ^ 31)) eqn:D; [|rewrite HC in R; discriminate R].
    destruct (IH r Q m a m' (H r) R) as (H1 & I1 & T1). split; [exact H1|]. split; [exact I1|]. exact T1.
  - destruct H as [D H]. cbv zeta in *. destruct (_ && _ && _ && _); [|discriminate R].
    match type of R with run (k ?v) T m = _ => destruct (IH v Q m a m' (H v) R) as (H1 & I1 & T1);
      pose proof (traced_pair T (k v) m) as E end.
    split; [exact H1|]. split.
    + intros p x I. match type of I with context [traced ?c T m] => destruct (traced c T m) as [l r] end. cbn [fst In] in *.
      destruct I as [I|I]; [injection I as <- <-; exact D|auto].
    + intros T' W. rewrite (T1 T' W). reflexivity.
  - destruct (s_plane s) as [n|n]; [discriminate R|]. cbv zeta in *. destruct (_ && _ && _ && _); [|discriminate R].
    match type of R with run (k tt) T ?m1 = _ => destruct (IH tt Q m1 a m' H R) as (H1 & I1 & T1) end.
    split; [exact H1|]. split.
    + intros p x I. match type of I with context [traced ?c T ?m1] => destruct (traced c T m1) as [l r] end. cbn [fst In] in *.
      destruct I as [I|I]; [discriminate I|auto].
    + intros T' W. rewrite (T1 T' W). reflexivity.
Qed.

Definition any {A} (a : A) : Prop := True.

(** The first [row] bytes of each of [rows] rows of a slice. *)
Definition band (s : slice) (stride rows row : Z) (p : plane) (a : Z) : Prop :=
  p = s_plane s /\ exists y j, 0 <= y < rows /\ 0 <= j < row /\ a = s_off s + y * stride + j.
Definition either (S S' : plane -> Z -> Prop) (p : plane) (a : Z) : Prop := S p a \/ S' p a.

Section Sees.
Variable T : target.

Section Steps.
Variable S : plane -> Z -> Prop.
Notation sees := (sees T S).
Lemma sees_then {A B} (c : M A) (k : A -> M B) P Q : sees c P -> (forall a, P a -> sees (k a) Q) -> sees (bind c k) Q.
Proof. intros H K. unfold bind. cbn [ReadFacts.sees]. eapply sees_mono; [intros p a D; exact D|exact K|exact H]. Qed.
Lemma sees_any {A} (c : M A) (P : A -> Prop) : sees c P -> sees c any.
Proof. intros H. eapply sees_mono; [intros p a D; exact D| |exact H]. intros; exact I. Qed.
Lemma sees_bind {A B} (c : M A) (k : A -> M B) Q : sees c any -> (forall a, sees (k a) Q) -> sees (bind c k) Q.
Proof. intros H K. eapply sees_then; [exact H|auto]. Qed.
Lemma sees_assoc {A B C} (a : M A) (b : A -> M B) (k : B -> M C) Q :
  sees (bind a (fun x => bind (b x) k)) Q -> sees (bind (bind a b) k) Q.
Proof. intros H. exact H. Qed.
Lemma sees_ret {A} (a : A) (Q : A -> Prop) : Q a -> sees (ret a) Q.
Proof. intros H. exact H. Qed.
Lemma sees_pure {A B} (a : A) (k : A -> M B) Q : sees (k a) Q -> sees (bind (ret a) k) Q.
Proof. intros H. exact H. Qed.
Lemma sees_raise {A} f (Q : A -> Prop) : sees (raise f) Q.
Proof. exact I. Qed.
Lemma sees_ures {B} r (k : Z -> M B) Q : (0 <= r < usz T -> sees (k r) Q) -> sees (bind (ures r) k) Q.
Proof. intros H. exact H. Qed.
Lemma sees_usize r (Q : Z -> Prop) : Q r -> sees (ures r) Q.
Proof. intros H _. exact H. Qed.
Lemma sees_wg {B} x y d s (k : Z -> M B) Q : sees (k (s * y + x * d)) Q -> sees (bind (wg_index x y d s) k) Q.
Proof. intros H _ _ _. exact H. Qed.
Lemma sees_ires {B} r (k : Z -> M B) Q : (forall v, sees (k v) Q) -> sees (bind (ires r) k) Q.
Proof. intros H. exact H. Qed.
Lemma sees_ires_any r : sees (ires r) any.
Proof. intros v. exact I. Qed.
Lemma sees_ld s i : S (s_plane s) (s_off s + i) -> sees (ld s i) any.
Proof. intros H. split; [exact H|intros v; exact I]. Qed.
Lemma sees_st s i v : sees (st s i v) any.
Proof. exact I. Qed.
Lemma sees_ldn s n : forall i, (forall j, 0 <= j < Z.of_nat n -> S (s_plane s) (s_off s + (i + j))) -> sees (ldn s i n) any.
Proof.
  induction n as [|n IH]; intros i H; cbn [ldn]; [exact I|].
  apply sees_bind; [apply sees_ld; rewrite <- (Z.add_0_r i); apply H; lia|intros b].
  apply sees_bind; [|intros l; exact I].
  apply IH. intros j J. replace (i + 1 + j) with (i + (j + 1)) by lia. apply H. lia.
Qed.
Lemma sees_stn s l : forall i, sees (stn s i l) any.
Proof. induction l as [|b l IH]; intros i; cbn [stn]; [exact I|]. apply sees_bind; [exact I|intros _; apply IH]. Qed.
Lemma sees_in_order l : sees (in_order l) any.
Proof. unfold in_order. split; [intros T' [_ E]; rewrite E; reflexivity|]. destruct (big T); exact I. Qed.
Lemma sees_ld_word n s i : (forall j, 0 <= j < Z.of_nat n -> S (s_plane s) (s_off s + (i + j))) -> sees (ld_word n s i) any.
Proof.
  intros H. unfold ld_word. apply sees_bind; [apply sees_ldn; exact H|intros l].
  apply sees_bind; [apply sees_in_order|intros l'; exact I].
Qed.
Lemma sees_st_word n s i v : sees (st_word n s i v) any.
Proof. unfold st_word. apply sees_bind; [apply sees_in_order|intros l; apply sees_stn]. Qed.
Lemma sees_oob a b c d : sees (out_of_bounds a b c d) any.
Proof.
  unfold out_of_bounds. split; [intros T' [E _]; unfold usize_max; rewrite E; reflexivity|].
  destruct (_ <? _); [exact I|]. destruct (_ =? _); [exact I|]. destruct (_ <? _); [exact I|]. intros D D'. exact I.
Qed.
Lemma sees_for_from n f : forall i, (forall j, i <= j < i + Z.of_nat n -> sees (f j) any) -> sees (for_from n i f) any.
Proof.
  induction n as [|n IH]; intros i H; cbn [for_from]; [exact I|].
  apply sees_bind; [apply H; lia|intros _]. apply IH. intros j J. apply H. lia.
Qed.
Lemma sees_for n f : (forall j, 0 <= j < n -> sees (f j) any) -> sees (for_ n f) any.
Proof. intros H. unfold for_. apply sees_for_from. intros j J. apply H. lia. Qed.
Lemma sees_loop {X} n (f : X -> M X) (P : Z -> X -> Prop) :
  (forall i s, 0 <= i < Z.of_nat n -> P i s -> sees (f s) (P (i + 1))) ->
  forall s, P 0 s -> sees (loop n s f) (P (Z.of_nat n)).
Proof.
  revert P. induction n as [|n IH]; intros P H s Hs; cbn [loop]; [exact Hs|].
  eapply sees_then; [apply (H 0 s); [lia|exact Hs]|]. intros s' Hs'.
  eapply sees_mono; [intros p a D; exact D| |apply (IH (fun i => P (i + 1)))].
  - intros x. replace (Z.of_nat n + 1) with (Z.of_nat (Datatypes.S n)) by lia. auto.
  - intros i x Hi. apply H. lia.
  - exact Hs'.
Qed.
End Steps.

Ltac consts :=
  change Sse2.RGB_TO_YUV_WAVES with 4 in *; change Sse2.YUV_TO_RGB_WAVES with 16 in *; change Avx2.RGB_TO_YUV_WAVES with 8 in *;
  change Avx2.YUV_TO_RGB_WAVES with 32 in *; change Neon.RGB_TO_YUV_WAVES with 8 in *; change (16 / 2) with 8 in *; change (32 / 2) with 16 in *.
(** [band s stride rows row (s_plane s) (s_off s + (stride * r + x))] *)
Ltac in_band :=
  lazymatch goal with
  | |- band ?s ?st _ _ (s_plane ?s) (s_off ?s + ?e) =>
      split; [reflexivity|];
      match e with context [st * ?r] => exists r, (e - st * r); split; [lia|split; [lia|ring]] end
  end.
Ltac in_set :=
  lazymatch goal with
  | |- band _ _ _ _ _ _ => in_band
  | |- either _ _ _ _ => first [left; in_set|right; in_set]
  end.
Ltac see_step :=
  cbv beta zeta iota;
  lazymatch goal with
  | |- sees _ _ (bind (bind _ _) _) _ => apply sees_assoc
  | |- sees _ _ (bind (ret _) _) _ => apply sees_pure
  | |- sees _ _ (bind (wg_index _ _ _ _) _) _ => apply sees_wg
  | |- sees _ _ (bind (ures _) _) _ => apply sees_ures; intros _
  | |- sees _ _ (bind (ires _) _) _ => apply sees_ires; intros ?
  | |- sees _ _ (bind (ld _ _) _) _ => apply sees_bind; [|intros ?]
  | |- sees _ _ (bind (ldn _ _ _) _) _ => apply sees_bind; [|intros ?]
  | |- sees _ _ (bind (st _ _ _) _) _ => apply sees_bind; [apply sees_st|intros ?]
  | |- sees _ _ (bind (stn _ _ _) _) _ => apply sees_bind; [apply sees_stn|intros ?]
  | |- sees _ _ (bind (ld_u64 _ _) _) _ => apply sees_bind; [apply sees_ld_word|intros ?]
  | |- sees _ _ (bind (ld_u32 _ _) _) _ => apply sees_bind; [apply sees_ld_word|intros ?]
  | |- sees _ _ (bind (st_u64 _ _ _) _) _ => apply sees_bind; [apply sees_st_word|intros ?]
  | |- sees _ _ (bind (st_u32 _ _ _) _) _ => apply sees_bind; [apply sees_st_word|intros ?]
  | |- sees _ _ (bind (match ?f with _ => _ end) _) _ => first [is_var f; destruct f | let k := head f in unfold k]
  | |- sees _ _ (bind ?c _) _ => let f := head c in unfold f
  | |- sees _ _ (ld _ _) _ => apply sees_ld
  | |- sees _ _ (ldn _ _ _) _ => apply sees_ldn
  | |- sees _ _ (st _ _ _) _ => apply sees_st
  | |- sees _ _ (stn _ _ _) _ => apply sees_stn
  | |- sees _ _ (st_u32 _ _ _) _ => apply sees_st_word
  | |- sees _ _ (st_u64 _ _ _) _ => apply sees_st_word
  | |- sees _ _ (ret _) _ => exact I
  | |- sees _ _ (raise _) _ => exact I
  | |- sees _ _ (ires _) _ => apply sees_ires_any
  | |- sees _ _ (match Sse2.unpack_ui8x3_i16x2_4x ?s ?l with _ => _ end) _ => destruct (Sse2.unpack_ui8x3_i16x2_4x s l)
  | |- sees _ _ (match Avx2.unpack_ui8x3_i16x2_8x ?s ?l with _ => _ end) _ => destruct (Avx2.unpack_ui8x3_i16x2_8x s l)
  | |- sees _ _ (match Sse2.i16_to_i16x2_8x ?l with _ => _ end) _ => destruct (Sse2.i16_to_i16x2_8x l)
  | |- sees _ _ (match Avx2.i16_to_i16x2_16x ?l with _ => _ end) _ => destruct (Avx2.i16_to_i16x2_16x l)
  | |- sees _ _ (match Sse2.pack_i16x3_8x ?v ?r ?g ?b with _ => _ end) _ => destruct (Sse2.pack_i16x3_8x v r g b)
  | |- sees _ _ (match Avx2.pack_i16x3_16x ?v ?r ?g ?b with _ => _ end) _ => destruct (Avx2.pack_i16x3_16x v r g b)
  | |- sees _ _ (match Avx2.pack_rgb_16x ?r ?g ?b with _ => _ end) _ => destruct (Avx2.pack_rgb_16x r g b)
  | |- sees _ _ (match Sse2.chroma_8x ?c ?l ?r with _ => _ end) _ => destruct (Sse2.chroma_8x c l r) as [[? ?] ?]
  | |- sees _ _ (match Avx2.chroma_16x ?c ?l ?r with _ => _ end) _ => destruct (Avx2.chroma_16x c l r) as [[? ?] ?]
  | |- sees _ _ (match Neon.rgb_to_uv_8x ?c ?r ?g ?b with _ => _ end) _ => destruct (Neon.rgb_to_uv_8x c r g b)
  | |- sees _ _ (match ?f with _ => _ end) _ => first [is_var f; destruct f | let k := head f in unfold k]
  | |- sees _ _ ?c _ => let f := head c in unfold f
  | |- forall j, 0 <= j < Z.of_nat (Z.to_nat (Neon.load_len ?s)) -> _ => let n := eval cbv in (Neon.load_len s) in change (Neon.load_len s) with n; intros ? ?
  | |- forall j, 0 <= j < _ -> _ => intros ? ?
  | |- band _ _ _ _ _ _ => consts; in_band
  | |- either _ _ _ _ => consts; in_set
  end.
Ltac see := repeat see_step.
Ltac grid := apply sees_for; intros y Y; apply sees_for; intros x X; consts.

(** The rows of the source are read up to [sl w] bytes after their end. *)
Definition see_1_2 (d : Z) (sl : Z -> Z) (k : kernel_1_2) := forall w h ss s ds dd, 0 < w -> sees T (band s ss h (d * w + sl w)) (k w h ss s ds dd) any.
Definition see_1_3 (d : Z) (sl : Z -> Z) (k : kernel_1_3) := forall w h ss s ds dd, 0 < w -> sees T (band s ss h (d * w + sl w)) (k w h ss s ds dd) any.
Definition see_2_1 (k : kernel_2_1) := forall w h ys us yb ub ds dd, 0 < w ->
  sees T (either (band yb ys h w) (band ub us (h / 2) w)) (k w h (ys, us) (yb, ub) ds dd) any.
Definition see_3_1 (sub : Z) (k : kernel_3_1) := forall w h ys us vs yb ub vb ds dd, 0 < w ->
  sees T (either (band yb ys h w) (either (band ub us (h / sub) (w / sub)) (band vb vs (h / sub) (w / sub)))) (k w h (ys, us, vs) (yb, ub, vb) ds dd) any.
Definition depth_of (smp : sampler) : Z := match smp with S_Bgr => 3 | _ => 4 end.
Definition none (w : Z) : Z := 0.

Definition beyond (n : Z) (smp : sampler) (w : Z) : Z := match smp with S_Bgr => n | _ => 0 end.
Ltac first_steps :=
  cbv beta zeta iota;
  lazymatch goal with
  | |- sees _ _ (for_ _ _) _ => fail
  | |- _ => see_step
  end.

Lemma see_rgb_nv12 smp c : see_1_2 (depth_of smp) none (rgb_to_nv12 smp (depth_of smp) c).
Proof. intros w h ss s [ys us] [yb ub] W. unfold none, beyond, rgb_to_nv12. destruct smp; cbn [depth_of]; repeat first_steps; grid; see. Qed.
Lemma see_rgb_i420 smp c : see_1_3 (depth_of smp) none (rgb_to_i420 smp (depth_of smp) c).
Proof. intros w h ss s [[ys us] vs] [[yb ub] vb] W. unfold none, beyond, rgb_to_i420. destruct smp; cbn [depth_of]; repeat first_steps; grid; see. Qed.
Lemma see_rgb_i444 smp c : see_1_3 (depth_of smp) none (rgb_to_i444 smp (depth_of smp) c).
Proof. intros w h ss s [[ys us] vs] [[yb ub] vb] W. unfold none, beyond, rgb_to_i444. destruct smp; cbn [depth_of]; repeat first_steps; grid; see. Qed.
Lemma see_sse2_nv12 smp c : see_1_2 (depth_of smp) (beyond 4 smp) (Sse2.rgb_to_nv12_sse2 smp (depth_of smp) c).
Proof. intros w h ss s [ys us] [yb ub] W. unfold none, beyond, Sse2.rgb_to_nv12_sse2. destruct smp; cbn [depth_of]; repeat first_steps; grid; see. Qed.
Lemma see_sse2_i420 smp c : see_1_3 (depth_of smp) (beyond 4 smp) (Sse2.rgb_to_i420_sse2 smp (depth_of smp) c).
Proof. intros w h ss s [[ys us] vs] [[yb ub] vb] W. unfold none, beyond, Sse2.rgb_to_i420_sse2. destruct smp; cbn [depth_of]; repeat first_steps; grid; see. Qed.
Lemma see_sse2_i444 smp c : see_1_3 (depth_of smp) (beyond 4 smp) (Sse2.rgb_to_i444_sse2 smp (depth_of smp) c).
Proof. intros w h ss s [[ys us] vs] [[yb ub] vb] W. unfold none, beyond, Sse2.rgb_to_i444_sse2. destruct smp; cbn [depth_of]; repeat first_steps; grid; see. Qed.
Lemma see_avx2_nv12 smp c : see_1_2 (depth_of smp) (beyond 8 smp) (Avx2.rgb_to_nv12_avx2 smp (depth_of smp) c).
Proof. intros w h ss s [ys us] [yb ub] W. unfold none, beyond, Avx2.rgb_to_nv12_avx2. destruct smp; cbn [depth_of]; repeat first_steps; grid; see. Qed.
Lemma see_avx2_i420 smp c : see_1_3 (depth_of smp) (beyond 8 smp) (Avx2.rgb_to_i420_avx2 smp (depth_of smp) c).
Proof. intros w h ss s [[ys us] vs] [[yb ub] vb] W. unfold none, beyond, Avx2.rgb_to_i420_avx2. destruct smp; cbn [depth_of]; repeat first_steps; grid; see. Qed.
Lemma see_avx2_i444 smp c : see_1_3 (depth_of smp) (beyond 8 smp) (Avx2.rgb_to_i444_avx2 smp (depth_of smp) c).
Proof. intros w h ss s [[ys us] vs] [[yb ub] vb] W. unfold none, beyond, Avx2.rgb_to_i444_avx2. destruct smp; cbn [depth_of]; repeat first_steps; grid; see. Qed.
Lemma see_neon_nv12 smp c : see_1_2 (depth_of smp) none (Neon.rgb_to_nv12_neon smp (depth_of smp) c).
Proof. intros w h ss s [ys us] [yb ub] W. unfold none, beyond, Neon.rgb_to_nv12_neon. destruct smp; cbn [depth_of]; repeat first_steps; grid; see. Qed.
Lemma see_neon_i420 smp c : see_1_3 (depth_of smp) none (Neon.rgb_to_i420_neon smp (depth_of smp) c).
Proof. intros w h ss s [[ys us] vs] [[yb ub] vb] W. unfold none, beyond, Neon.rgb_to_i420_neon. destruct smp; cbn [depth_of]; repeat first_steps; grid; see. Qed.
Lemma see_neon_i444 smp c : see_1_3 (depth_of smp) none (Neon.rgb_to_i444_neon smp (depth_of smp) c).
Proof. intros w h ss s [[ys us] vs] [[yb ub] vb] W. unfold none, beyond, Neon.rgb_to_i444_neon. destruct smp; cbn [depth_of]; repeat first_steps; grid; see. Qed.
Lemma see_nv12_bgra c r : see_2_1 (nv12_to_bgra c r).
Proof. intros w h ys us yb ub ds d W. unfold nv12_to_bgra. grid; see. Qed.
Lemma see_nv12_rgb c : see_2_1 (nv12_to_rgb c).
Proof. intros w h ys us yb ub ds d W. unfold nv12_to_rgb. grid; see. Qed.
Lemma see_i420_bgra c r : see_3_1 2 (i420_to_bgra c r).
Proof. intros w h ys us vs yb ub vb ds d W. unfold i420_to_bgra. grid; see. Qed.
Lemma see_i444_bgra c r : see_3_1 1 (i444_to_bgra c r).
Proof. intros w h ys us vs yb ub vb ds d W. unfold i444_to_bgra. grid; see. Qed.
Lemma see_sse2_nv12_bgra c r : see_2_1 (Sse2.nv12_to_bgra_sse2 c r).
Proof. intros w h ys us yb ub ds d W. unfold Sse2.nv12_to_bgra_sse2. grid; see. Qed.
Lemma see_sse2_i420_bgra c r : see_3_1 2 (Sse2.i420_to_bgra_sse2 c r).
Proof. intros w h ys us vs yb ub vb ds d W. unfold Sse2.i420_to_bgra_sse2. grid; see. Qed.
Lemma see_sse2_i444_bgra c r : see_3_1 1 (Sse2.i444_to_bgra_sse2 c r).
Proof. intros w h ys us vs yb ub vb ds d W. unfold Sse2.i444_to_bgra_sse2. grid; see. Qed.
Lemma see_avx2_nv12_bgra c r : see_2_1 (Avx2.nv12_to_bgra_avx2 c r).
Proof. intros w h ys us yb ub ds d W. unfold Avx2.nv12_to_bgra_avx2. grid; see. Qed.
Lemma see_avx2_i420_bgra c r : see_3_1 2 (Avx2.i420_to_bgra_avx2 c r).
Proof. intros w h ys us vs yb ub vb ds d W. unfold Avx2.i420_to_bgra_avx2. grid; see. Qed.
Lemma see_avx2_i444_bgra c r : see_3_1 1 (Avx2.i444_to_bgra_avx2 c r).
Proof. intros w h ys us vs yb ub vb ds d W. unfold Avx2.i444_to_bgra_avx2. grid; see. Qed.
Lemma see_avx2_nv12_rgb c : see_2_1 (Avx2.nv12_to_rgb_avx2 c).
Proof. intros w h ys us yb ub ds d W. unfold Avx2.nv12_to_rgb_avx2. grid; see. Qed.

(** ** Re-orderings *)
Definition see_1_1 (P : Z -> Prop) (sd : Z) (e : Z -> Z -> Z) (k : kernel_1_1) := forall w h ss s ds d, P w -> 0 < w ->
  sees T (either (band s ss h (sd * w)) (band s ss (h - 1) (sd * w + e w ss))) (k w h ss s ds d) any.
Definition exact_rows (w ss : Z) : Z := 0.
(** What the scalar code reads after a row of [w] pixels of RGB that are [ss] bytes apart *)
Definition rgb_spill (w ss : Z) : Z := Z.min (if w mod 8 =? 0 then 2 else 1) (ss - 3 * w).
(** [n] bytes from [o] on *)
Definition run_of (S : plane -> Z -> Prop) (s : slice) (o n : Z) := forall j, 0 <= j < n -> S (s_plane s) (s_off s + (o + j)).
(** A step that carries a position, moved by [n] pixels, and two offsets; it reads [e] more bytes. *)
Definition carries (S : plane -> Z -> Prop) (s : slice) (n sd e : Z) (f : Z * Z * Z -> M (Z * Z * Z)) :=
  forall x so do_, run_of S s so (sd * n + e) -> sees T S (f (x, so, do_)) (fun st_ => fst (fst st_) = x + n /\ snd (fst st_) = so + sd * n).
Ltac in_run :=
  match goal with H : run_of ?S ?s ?o _ |- ?S (s_plane ?s) (s_off ?s + ?e) =>
    replace e with (o + (e - o)) by ring; apply H; lia end.
Ltac carry :=
  intros x so do_ H; cbv beta zeta iota;
  repeat (cbv beta zeta iota; lazymatch goal with
  | |- sees _ _ (ret _) (fun _ => _ /\ _) => split; cbn [fst snd]; lia
  | |- sees _ _ (match bgr_to_rgb_words ?a ?b ?c with _ => _ end) _ => destruct (bgr_to_rgb_words a b c) as [[? ?] ?]
  | |- sees _ _ (match Avx2.bgra_to_rgb_32x ?a ?b ?c ?d with _ => _ end) _ => destruct (Avx2.bgra_to_rgb_32x a b c d) as [[? ?] ?]
  | |- sees _ _ _ _ => see_step
  | |- forall j, 0 <= j < _ -> _ => intros ? ?
  | |- _ => in_run
  end).
Lemma carries_bgr S src dst : carries S src 8 3 0 (bgr_to_rgb_step8 src dst).
Proof. unfold bgr_to_rgb_step8. carry. Qed.
Lemma carries_swap S sd dd src dst : 3 <= sd -> carries S src 1 sd 0 (swap_copy_step1 sd dd src dst).
Proof. intros Hs. unfold swap_copy_step1. carry. Qed.
Lemma carries_bgra S src dst : carries S src 8 4 0 (bgra_to_rgb_step8 src dst).
Proof. unfold bgra_to_rgb_step8. carry. Qed.
Lemma carries_rgb8 S src dst : carries S src 8 3 2 (rgb_to_bgra_step8 src dst).
Proof. unfold rgb_to_bgra_step8. carry. Qed.
Lemma carries_rgb1 S src dst : carries S src 1 3 1 (rgb_to_bgra_step1 src dst).
Proof. unfold rgb_to_bgra_step1. carry. Qed.
Lemma carries_avx2_32 S src dst : carries S src 32 4 0 (Avx2.bgra_to_rgb_step32 src dst).
Proof. unfold Avx2.bgra_to_rgb_step32. change Avx2.LANE_COUNT with 32. carry. Qed.
Lemma carries_avx2_8 S src dst : carries S src 8 4 0 (Avx2.bgra_to_rgb_step8_avx2 src dst).
Proof. unfold Avx2.bgra_to_rgb_step8_avx2. carry. Qed.

Lemma carries_loop S s n sd e f m x0 so do_ : carries S s n sd e f -> 0 <= sd * n -> 0 <= e -> run_of S s so (Z.of_nat m * (sd * n) + (if (0 <? Z.of_nat m) then e else 0)) ->
  sees T S (loop m (x0, so, do_) f) (fun st_ => fst (fst st_) = x0 + Z.of_nat m * n /\ snd (fst st_) = so + Z.of_nat m * (sd * n)).
Proof.
  intros C N E R. apply (sees_loop S m f (fun i st_ => fst (fst st_) = x0 + i * n /\ snd (fst st_) = so + i * (sd * n))); [|cbn [fst snd]; lia].
  intros i [[x so'] do'] Hi [X O]. cbn [fst snd] in X, O. subst x so'.
  eapply sees_mono; [intros p a D; exact D| |apply C].
  - cbv beta. intros st_ [X O]. rewrite X, O. lia.
  - intros j J. replace (so + i * (sd * n) + j) with (so + (i * (sd * n) + j)) by ring. apply R.
    replace (0 <? Z.of_nat m) with true by lia. nia.
Qed.
Lemma lower_pot k w : 0 <= k -> 0 <= w -> lower_multiple_of_pot w (2 ^ k) = 2 ^ k * (w / 2 ^ k).
Proof.
  intros Hk Hw. unfold lower_multiple_of_pot. replace (2 ^ k - 1) with (Z.ones k) by (rewrite Z.ones_equiv; lia).
  rewrite Z.land_ones by lia. pose proof (Z.div_mod w (2 ^ k) ltac:(pose proof (Z.pow_pos_nonneg 2 k); lia)). lia.
Qed.
Lemma lower_4 w : 0 <= w -> lower_multiple_of_pot w 4 = 4 * (w / 4).
Proof. apply (lower_pot 2). lia. Qed.
Lemma lower_8 w : 0 <= w -> lower_multiple_of_pot w 8 = 8 * (w / 8).
Proof. apply (lower_pot 3). lia. Qed.
Lemma lower_16 w : 0 <= w -> lower_multiple_of_pot w 16 = 16 * (w / 16).
Proof. apply (lower_pot 4). lia. Qed.
Lemma lower_32 w : 0 <= w -> lower_multiple_of_pot w 32 = 32 * (w / 32).
Proof. apply (lower_pot 5). lia. Qed.
Lemma run_part S s o n o' n' : run_of S s o n -> o <= o' -> o' + n' <= o + n -> run_of S s o' n'.
Proof. intros R L U j J. replace (o' + j) with (o + (o' - o + j)) by ring. apply R. lia. Qed.

(** Eight pixels at a time, then one at a time *)
Lemma eights S s sd w so do_ f g : 0 < w -> 3 <= sd <= 4 -> carries S s 8 sd 0 f -> carries S s 1 sd 0 g -> run_of S s so (sd * w) ->
  sees T S (s1 <- loop (Z.to_nat ((lower_multiple_of_pot w 8 + 7) / 8)) (0, so, do_) f ;;
          loop (Z.to_nat (w - fst (fst s1))) s1 g ;; ret tt) any.
Proof.
  intros W D F G R. rewrite lower_8 by lia. replace ((8 * (w / 8) + 7) / 8) with (w / 8) by lia.
  eapply sees_then; [apply (carries_loop S s 8 sd 0 f _ 0 so do_ F); [lia|lia|]|].
  - eapply run_part; [exact R|lia|]. destruct (0 <? _); nia.
  - intros [[x so'] do'] [X O]. cbn [fst snd] in *. rewrite Z2Nat.id in X, O by lia. subst x so'.
    eapply sees_then; [apply (carries_loop S s 1 sd 0 g _ _ _ _ G); [lia|lia|]|intros; exact I].
    eapply run_part; [exact R|nia|]. destruct (0 <? _); nia.
Qed.
(** A whole row of a band *)
Lemma row_run s ss h row y (S : plane -> Z -> Prop) : (forall p a, band s ss h row p a -> S p a) -> 0 <= y < h -> run_of S s (ss * y) row.
Proof. intros H Y j J. apply H. split; [reflexivity|]. exists y, j. split; [exact Y|]. split; [exact J|ring]. Qed.
Lemma row_run' s ss h row y (S : plane -> Z -> Prop) : (forall p a, band s ss h row p a -> S p a) -> 0 <= y < h -> run_of S s (y * ss) row.
Proof. intros. rewrite Z.mul_comm. apply (row_run s ss h row y S); assumption. Qed.

Lemma see_bgr_rgb : see_1_1 any 3 exact_rows bgr_to_rgb.
Proof.
  intros w h ss s ds d _ W. unfold bgr_to_rgb. cbv zeta. apply sees_for. intros i Hi.
  apply sees_ures. intros _. apply sees_ures. intros _.
  apply (eights _ s 3); [exact W|lia|apply carries_bgr|apply carries_swap; lia|].
  eapply row_run; [|exact Hi]. intros p a B. left. exact B.
Qed.
Lemma see_bgra_rgb : see_1_1 any 4 exact_rows bgra_to_rgb.
Proof.
  intros w h ss s ds d _ W. unfold bgra_to_rgb. do 4 (apply sees_ures; intros _). cbv zeta. apply sees_for. intros i Hi.
  do 6 (apply sees_ures; intros _).
  apply (eights _ s 4); [exact W|lia|apply carries_bgra|apply carries_swap; lia|].
  replace (4 * w + (ss - 4 * w)) with ss by ring.
  eapply row_run; [|exact Hi]. intros p a B. left. exact B.
Qed.
Lemma last_pixel S s d w x so do_ : w - 1 <= x <= w -> run_of S s so (3 * (w - x)) ->
  sees T S (rgb_to_bgra_last s d w (x, so, do_)) (fun st_ => fst st_ = so + 3 * (w - x)).
Proof.
  intros X R. unfold rgb_to_bgra_last. destruct (x <? w) eqn:L; [|apply sees_ret; cbn [fst]; lia].
  repeat (cbv beta zeta iota; lazymatch goal with
  | |- sees _ _ (ret _) _ => cbn [fst]; apply sees_ret; cbn [fst]; lia
  | |- sees _ _ _ _ => see_step
  | |- _ => in_run
  end).
Qed.
Lemma see_line w h ss s d S sdiff ddiff y so do_ : 0 < w -> sdiff = ss - 3 * w -> 0 <= sdiff -> 0 <= y < h -> so = y * ss ->
  run_of S s so (3 * w + (if y =? h - 1 then 0 else rgb_spill w ss)) ->
  sees T S (rgb_to_bgra_line w h sdiff ddiff s d (y, so, do_)) (fun st_ => fst (fst st_) = y + 1 /\ snd (fst st_) = (y + 1) * ss).
Proof.
  intros W Ed Dn Y Eo R. unfold rgb_to_bgra_line. apply sees_ures. intros _. cbv zeta.
  assert (Rs : 0 <= rgb_spill w ss /\ (w mod 8 = 0 -> 2 <= sdiff -> rgb_spill w ss = 2) /\ (1 <= sdiff -> 1 <= rgb_spill w ss))
    by (unfold rgb_spill; destruct (w mod 8 =? 0) eqn:?; lia).
  set (e := rgb_spill w ss) in *. clearbody e.
  apply (sees_then _ _ _ (fun v => (v = w - 1 \/ v = w /\ 1 <= sdiff) /\ (y = h - 1 -> v = w - 1))).
  { destruct (_ || _) eqn:L; [apply sees_usize|apply sees_ret]; lia. }
  intros single Hs.
  apply (sees_then _ _ _ (fun v => (v = 8 * ((w - 1) / 8) \/ v = 8 * (w / 8) /\ (w mod 8 = 0 -> 2 <= sdiff)) /\ (y = h - 1 -> v = 8 * ((w - 1) / 8)))).
  { destruct (_ || _) eqn:L; [apply sees_ures; intros _|]; apply sees_ret; lia. }
  intros multi Hm.
  assert (M1 : 0 <= multi <= w) by lia. assert (M2 : (multi + 7) / 8 = multi / 8 /\ multi = 8 * (multi / 8)) by lia. destruct M2 as [M2 M3]. rewrite M2.
  eapply sees_then; [apply (carries_loop S s 8 3 2 _ _ 0 so do_ (carries_rgb8 S s d)); [lia|lia|]|].
  { eapply run_part; [exact R|lia|]. rewrite Z2Nat.id by lia. destruct (y =? h - 1) eqn:?, (0 <? _) eqn:?; lia. }
  intros [[x so'] do'] [X O]. cbn [fst snd] in *. rewrite Z2Nat.id in X, O by lia. assert (x = multi) by lia. assert (so' = so + 3 * multi) by lia. clear X O. subst x so'.
  set (n := Z.to_nat (single - multi)) in *. assert (N : Z.of_nat n = Z.max 0 (single - multi)) by (unfold n; lia). clearbody n.
  eapply sees_then; [apply (carries_loop S s 1 3 1 _ n multi _ do' (carries_rgb1 S s d)); [lia|lia|]|].
  { eapply run_part; [exact R|lia|]. rewrite N. destruct (y =? h - 1) eqn:?, (0 <? _) eqn:?; lia. }
  intros [[x so'] do''] [X O]. cbn [fst snd] in *.
  assert (X' : w - 1 <= x <= w) by lia. assert (O' : so' = so + 3 * x) by lia. clear X O.
  eapply sees_then; [apply (last_pixel S s d w x so' do'' X')|].
  { eapply run_part; [exact R|lia|]. destruct (y =? h - 1); lia. }
  intros [so2 do2] E. cbn [fst] in E. do 2 (apply sees_ures; intros _). cbn [fst snd]. apply sees_ret. cbn [fst snd]. subst. split; [reflexivity|ring].
Qed.
Lemma see_rgb_bgra : see_1_1 any 3 rgb_spill rgb_to_bgra.
Proof.
  intros w h ss s ds d _ W. unfold rgb_to_bgra. apply sees_ures; intros _. apply sees_ures; intros Dn. do 2 (apply sees_ures; intros _).
  eapply sees_then; [apply (sees_loop _ _ _ (fun i st_ => fst (fst st_) = i /\ snd (fst st_) = i * ss))|intros; exact I]; [|cbn [fst snd]; lia].
  intros i [[y so] do_] Hi [E O]. cbn [fst snd] in E, O. subst y.
  apply see_line; [exact W|reflexivity|lia|lia|exact O|]. subst so. destruct (i =? h - 1) eqn:L.
  - rewrite Z.add_0_r. apply row_run' with (h := h); [|lia]. intros p a B. left. exact B.
  - apply row_run' with (h := h - 1); [|lia]. intros p a B. right. exact B.
Qed.
End Sees.
