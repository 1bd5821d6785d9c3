(** Programs that read source planes only. *)
From Coq Require Import ZArith List Bool Lia ZifyBool ZifyNat.
Import ListNotations.
From Verif Require Import Base Fmt Common Scalar Wrappers Simd Vector CpuInfo Lib Sets Spec ApiSpec Api Exec DataSpec BigFacts DataFacts Trace.
From Verif Require Sse2 Avx2 Neon.
Open Scope Z_scope.

(** ** Programs *)

(** Whatever is read and however arithmetic ends, [c] reads source planes only and its result
    satisfies [P]. *)
Fixpoint calm {A} (c : M A) (P : A -> Prop) {struct c} : Prop :=
  match c with
  | Ret a => P a
  | Raise _ => True
  | Bind c k => calm c (fun b => calm (k b) P)
  | Ask k => forall T, calm (k T) P
  | Usize _ k => forall v, calm (k v) P
  | Int32 _ k => forall v, calm (k v) P
  | Read s _ k => is_src s /\ forall v, calm (k v) P
  | Write _ _ _ k => calm (k tt) P
  end.

Definition any {A} (_ : A) : Prop := True.

Lemma calm_mono {A} (c : M A) : forall P Q : A -> Prop, (forall a, P a -> Q a) -> calm c P -> calm c Q.
Proof.
  induction c as [a|f|A B c IH k IHk|A k IH|A r k IH|A r k IH|A s i k IH|A s i v k IH]; intros P Q H; cbn [calm]; auto.
  - apply IH. intros b. apply IHk, H.
  - intros C T. exact (IH T P Q H (C T)).
  - intros C T. exact (IH T P Q H (C T)).
  - intros C T. exact (IH T P Q H (C T)).
  - intros [S C]. split; [exact S|]. intros v. exact (IH v P Q H (C v)).
  - exact (IH tt P Q H).
Qed.
Lemma calm_then {A B} (c : M A) (k : A -> M B) P Q : calm c P -> (forall a, P a -> calm (k a) Q) -> calm (bind c k) Q.
Proof. intros C H. unfold bind. cbn [calm]. exact (calm_mono c P _ H C). Qed.
Lemma calm_bind {A B} (c : M A) (k : A -> M B) Q : calm c any -> (forall a, calm (k a) Q) -> calm (bind c k) Q.
Proof. intros C H. eapply calm_then; [exact C|auto]. Qed.
Lemma calm_ld s i : is_src s -> calm (ld s i) any.
Proof. intros H. split; [exact H|]. intros v. exact I. Qed.
Lemma calm_st s i v : calm (st s i v) any.
Proof. exact I. Qed.
Lemma calm_ldn s n : is_src s -> forall i, calm (ldn s i n) any.
Proof.
  intros H. induction n as [|n IH]; intros i; cbn [ldn]; [exact I|].
  apply calm_bind; [apply calm_ld, H|intros x]. apply calm_bind; [apply IH|intros y; exact I].
Qed.
Lemma calm_stn s bs : forall i, calm (stn s i bs) any.
Proof.
  induction bs as [|b bs IH]; intros i; cbn [stn]; [exact I|].
  apply calm_bind; [exact I|intros x]. apply IH.
Qed.
Lemma calm_for_from n f : (forall i, calm (f i) any) -> forall i, calm (for_from n i f) any.
Proof.
  intros H. induction n as [|n IH]; intros i; cbn [for_from]; [exact I|].
  apply calm_bind; [apply H|intros x; apply IH].
Qed.
Lemma calm_for n f : (forall i, calm (f i) any) -> calm (for_ n f) any.
Proof. intros H. apply calm_for_from, H. Qed.
Lemma calm_loop {S} n (f : S -> M S) : (forall s, calm (f s) any) -> forall s, calm (loop n s f) any.
Proof.
  intros H. induction n as [|n IH]; intros s; cbn [loop]; [exact I|].
  apply calm_bind; [apply H|intros x; apply IH].
Qed.
Lemma calm_any {A} (c : M A) P : calm c P -> calm c any.
Proof. apply calm_mono. intros a _. exact I. Qed.

Lemma calm_oob a b c d : calm (out_of_bounds a b c d) any.
Proof.
  intros T. cbv beta. destruct (_ <? _); [exact I|]. destruct (_ =? _); [exact I|]. destruct (_ <? _); [exact I|].
  exact (fun _ _ => I).
Qed.

(** ** Kernels *)
Ltac source := first [assumption|match goal with H : src2 _ |- _ => apply H end|match goal with H : src3 _ |- _ => apply H end].
Ltac calm_step :=
  lazymatch goal with
  | |- calm (bind _ _) _ => apply calm_bind; [|intros ?]
  | |- calm (ret _) _ => exact I
  | |- calm (raise _) _ => exact I
  | |- calm (if ?b then _ else _) _ => destruct b
  | |- calm (for_ _ _) _ => apply calm_for; intros ?
  | |- calm (for_from _ _ _) _ => apply calm_for_from; intros ?
  | |- calm (loop _ _ _) _ => apply calm_loop; intros ?
  | |- calm (ures _) _ => exact (fun _ => I)
  | |- calm (ires _) _ => exact (fun _ => I)
  | |- calm (in_order _) _ => exact (fun _ => I)
  | |- calm (out_of_bounds _ _ _ _) _ => apply calm_oob
  | |- calm (ld _ _) _ => apply calm_ld; source
  | |- calm (st _ _ _) _ => exact I
  | |- calm (ldn _ _ _) _ => apply calm_ldn; source
  | |- calm (stn _ _ _) _ => apply calm_stn
  | |- calm (let '(_, _) := ?x in _) _ => destruct x
  | |- calm (match ?x with _ => _ end) _ => destruct x
  | |- calm ?c _ => let f := head c in unfold f; cbv beta zeta
  end.
Ltac calms := repeat calm_step.

Definition calm_1_2 (k : kernel_1_2) := forall w h ss s ds d, is_src s -> calm (k w h ss s ds d) any.
Definition calm_1_3 (k : kernel_1_3) := forall w h ss s ds d, is_src s -> calm (k w h ss s ds d) any.
Definition calm_2_1 (k : kernel_2_1) := forall w h ss s0 s1 ds d, is_src s0 -> is_src s1 -> calm (k w h ss (s0, s1) ds d) any.
Definition calm_3_1 (k : kernel_3_1) := forall w h ss s0 s1 s2 ds d, is_src s0 -> is_src s1 -> is_src s2 -> calm (k w h ss (s0, s1, s2) ds d) any.
Definition calm_1_1 (k : kernel_1_1) := forall w h ss s ds d, is_src s -> calm (k w h ss s ds d) any.

Lemma calm_bgr_rgb : calm_1_1 bgr_to_rgb.
Proof. intros w h ss s ds d H. unfold bgr_to_rgb. calms. Qed.
Lemma calm_bgra_rgb : calm_1_1 bgra_to_rgb.
Proof. intros w h ss s ds d H. unfold bgra_to_rgb. calms. Qed.
Lemma calm_rgb_bgra : calm_1_1 rgb_to_bgra.
Proof. intros w h ss s ds d H. unfold rgb_to_bgra. calms. Qed.
Lemma calm_rgb_nv12 smp dp c : calm_1_2 (rgb_to_nv12 smp dp c).
Proof. intros w h ss s ds d H. unfold rgb_to_nv12. calms. Qed.
Lemma calm_rgb_i420 smp dp c : calm_1_3 (rgb_to_i420 smp dp c).
Proof. intros w h ss s ds d H. unfold rgb_to_i420. calms. Qed.
Lemma calm_rgb_i444 smp dp c : calm_1_3 (rgb_to_i444 smp dp c).
Proof. intros w h ss s ds d H. unfold rgb_to_i444. calms. Qed.
Lemma calm_nv12_bgra c r : calm_2_1 (nv12_to_bgra c r).
Proof. intros w h ss s0 s1 ds d H0 H1. unfold nv12_to_bgra. cbn [fst snd]. calms. Qed.
Lemma calm_nv12_rgb c : calm_2_1 (nv12_to_rgb c).
Proof. intros w h ss s0 s1 ds d H0 H1. unfold nv12_to_rgb. cbn [fst snd]. calms. Qed.
Lemma calm_i420_bgra c r : calm_3_1 (i420_to_bgra c r).
Proof. intros w h ss s0 s1 s2 ds d H0 H1 H2. unfold i420_to_bgra. cbn [fst snd]. calms. Qed.
Lemma calm_i444_bgra c r : calm_3_1 (i444_to_bgra c r).
Proof. intros w h ss s0 s1 s2 ds d H0 H1 H2. unfold i444_to_bgra. cbn [fst snd]. calms. Qed.
Lemma calm_sse2_nv12 smp dp c : calm_1_2 (Sse2.rgb_to_nv12_sse2 smp dp c).
Proof. intros w h ss s ds d H. unfold Sse2.rgb_to_nv12_sse2. cbn [fst snd]. calms. Qed.
Lemma calm_sse2_i420 smp dp c : calm_1_3 (Sse2.rgb_to_i420_sse2 smp dp c).
Proof. intros w h ss s ds d H. unfold Sse2.rgb_to_i420_sse2. cbn [fst snd]. calms. Qed.
Lemma calm_sse2_i444 smp dp c : calm_1_3 (Sse2.rgb_to_i444_sse2 smp dp c).
Proof. intros w h ss s ds d H. unfold Sse2.rgb_to_i444_sse2. cbn [fst snd]. calms. Qed.
Lemma calm_sse2_nv12_bgra c r : calm_2_1 (Sse2.nv12_to_bgra_sse2 c r).
Proof. intros w h ss s0 s1 ds d H0 H1. unfold Sse2.nv12_to_bgra_sse2. cbn [fst snd]. calms. Qed.
Lemma calm_sse2_i420_bgra c r : calm_3_1 (Sse2.i420_to_bgra_sse2 c r).
Proof. intros w h ss s0 s1 s2 ds d H0 H1 H2. unfold Sse2.i420_to_bgra_sse2. cbn [fst snd]. calms. Qed.
Lemma calm_sse2_i444_bgra c r : calm_3_1 (Sse2.i444_to_bgra_sse2 c r).
Proof. intros w h ss s0 s1 s2 ds d H0 H1 H2. unfold Sse2.i444_to_bgra_sse2. cbn [fst snd]. calms. Qed.
Lemma calm_sse2_rgb_bgra : calm_1_1 Sse2.rgb_to_bgra_sse2.
Proof. intros w h ss s ds d H. unfold Sse2.rgb_to_bgra_sse2. cbn [fst snd]. calms. Qed.
Lemma calm_avx2_nv12 smp dp c : calm_1_2 (Avx2.rgb_to_nv12_avx2 smp dp c).
Proof. intros w h ss s ds d H. unfold Avx2.rgb_to_nv12_avx2. cbn [fst snd]. calms. Qed.
Lemma calm_avx2_i420 smp dp c : calm_1_3 (Avx2.rgb_to_i420_avx2 smp dp c).
Proof. intros w h ss s ds d H. unfold Avx2.rgb_to_i420_avx2. cbn [fst snd]. calms. Qed.
Lemma calm_avx2_i444 smp dp c : calm_1_3 (Avx2.rgb_to_i444_avx2 smp dp c).
Proof. intros w h ss s ds d H. unfold Avx2.rgb_to_i444_avx2. cbn [fst snd]. calms. Qed.
Lemma calm_avx2_nv12_bgra c r : calm_2_1 (Avx2.nv12_to_bgra_avx2 c r).
Proof. intros w h ss s0 s1 ds d H0 H1. unfold Avx2.nv12_to_bgra_avx2. cbn [fst snd]. calms. Qed.
Lemma calm_avx2_nv12_rgb c : calm_2_1 (Avx2.nv12_to_rgb_avx2 c).
Proof. intros w h ss s0 s1 ds d H0 H1. unfold Avx2.nv12_to_rgb_avx2. cbn [fst snd]. calms. Qed.
Lemma calm_avx2_i420_bgra c r : calm_3_1 (Avx2.i420_to_bgra_avx2 c r).
Proof. intros w h ss s0 s1 s2 ds d H0 H1 H2. unfold Avx2.i420_to_bgra_avx2. cbn [fst snd]. calms. Qed.
Lemma calm_avx2_i444_bgra c r : calm_3_1 (Avx2.i444_to_bgra_avx2 c r).
Proof. intros w h ss s0 s1 s2 ds d H0 H1 H2. unfold Avx2.i444_to_bgra_avx2. cbn [fst snd]. calms. Qed.
Lemma calm_avx2_rgb_bgra : calm_1_1 Avx2.rgb_to_bgra_avx2.
Proof. intros w h ss s ds d H. unfold Avx2.rgb_to_bgra_avx2. cbn [fst snd]. calms. Qed.
Lemma calm_avx2_bgr_rgb : calm_1_1 Avx2.bgr_to_rgb_avx2.
Proof. intros w h ss s ds d H. unfold Avx2.bgr_to_rgb_avx2. cbn [fst snd]. calms. Qed.
Lemma calm_avx2_bgra_rgb : calm_1_1 Avx2.bgra_to_rgb_avx2.
Proof. intros w h ss s ds d H. unfold Avx2.bgra_to_rgb_avx2. cbn [fst snd]. calms. Qed.
Lemma calm_neon_nv12 smp dp c : calm_1_2 (Neon.rgb_to_nv12_neon smp dp c).
Proof. intros w h ss s ds d H. unfold Neon.rgb_to_nv12_neon. cbn [fst snd]. calms. Qed.
Lemma calm_neon_i420 smp dp c : calm_1_3 (Neon.rgb_to_i420_neon smp dp c).
Proof. intros w h ss s ds d H. unfold Neon.rgb_to_i420_neon. cbn [fst snd]. calms. Qed.
Lemma calm_neon_i444 smp dp c : calm_1_3 (Neon.rgb_to_i444_neon smp dp c).
Proof. intros w h ss s ds d H. unfold Neon.rgb_to_i444_neon. cbn [fst snd]. calms. Qed.
Lemma calm_neon_bgr_rgb : calm_1_1 Neon.bgr_to_rgb_neon.
Proof. intros w h ss s ds d H. unfold Neon.bgr_to_rgb_neon. cbn [fst snd]. calms. Qed.
Lemma calm_neon_bgra_rgb : calm_1_1 Neon.bgra_to_rgb_neon.
Proof. intros w h ss s ds d H. unfold Neon.bgra_to_rgb_neon. cbn [fst snd]. calms. Qed.
Lemma calm_neon_rgb_bgra : calm_1_1 Neon.rgb_to_bgra_neon.
Proof. intros w h ss s ds d H. unfold Neon.rgb_to_bgra_neon. cbn [fst snd]. calms. Qed.

(** ** Vector and scalar part *)
Lemma calm_from s i : calm (slice_from s i) (fun a => is_src s -> is_src a).
Proof. unfold slice_from. destruct (_ && _); [|exact I]. intros [n E]. exists n. exact E. Qed.
Lemma calm_split s i : calm (split_at s i) (fun p => is_src s -> is_src (fst p) /\ is_src (snd p)).
Proof. unfold split_at. destruct (_ && _); [|exact I]. intros [n E]. split; exists n; exact E. Qed.
Ltac part := eapply calm_then; [apply calm_from|intros ? ?].
Ltac hybrid V K :=
  apply calm_bind; [destruct (_ <? _); [apply V; assumption|exact I]|intros _]; destruct (_ <? _); [|exact I];
  repeat lazymatch goal with
  | |- calm (bind (umul _ _) _) _ => apply calm_bind; [exact (fun _ => I)|intros ?]
  | |- calm (bind (slice_from _ _) _) _ => part
  end; apply K; auto.
Lemma calm_hyb_1_2 vp dp kv ks : calm_1_2 kv -> calm_1_2 ks -> calm_1_2 (hyb_1_2 vp dp kv ks).
Proof. intros V K w h ss s ds d H. unfold hyb_1_2. cbv zeta. hybrid V K. Qed.
Lemma calm_hyb_1_3 vp sub dp kv ks : calm_1_3 kv -> calm_1_3 ks -> calm_1_3 (hyb_1_3 vp sub dp kv ks).
Proof. intros V K w h ss s ds [[d0 d1] d2] H. unfold hyb_1_3. cbv zeta. hybrid V K. Qed.
Lemma calm_hyb_2_1 vp dp kv ks : calm_2_1 kv -> calm_2_1 ks -> calm_2_1 (hyb_2_1 vp dp kv ks).
Proof. intros V K w h ss s0 s1 ds d H0 H1. unfold hyb_2_1. cbv zeta. cbn [fst snd]. hybrid V K. Qed.
Lemma calm_hyb_3_1 vp sub dp kv ks : calm_3_1 kv -> calm_3_1 ks -> calm_3_1 (hyb_3_1 vp sub dp kv ks).
Proof. intros V K w h ss s0 s1 s2 ds d H0 H1 H2. unfold hyb_3_1. cbv zeta. cbn [fst snd]. hybrid V K. Qed.
Lemma calm_hyb_1_1 vp sd dd kv ks : calm_1_1 kv -> calm_1_1 ks -> calm_1_1 (hyb_1_1 vp sd dd kv ks).
Proof. intros V K w h ss s ds d H. unfold hyb_1_1. cbv zeta. hybrid V K. Qed.

(** ** The wrappers *)
Lemma calm_aidx {A} (a : arr A) i : calm (aidx a i) (fun x => In x (adata a)).
Proof.
  unfold aidx. destruct (_ && _); [|exact I]. destruct (nth_error _ _) eqn:E; [|exact I].
  exact (nth_error_In _ _ E).
Qed.
Lemma calm_aidx_src a i : all_src a -> calm (aidx a i) is_src.
Proof. intros H. eapply calm_mono; [|apply calm_aidx]. intros x. apply (proj1 (Forall_forall _ _) H). Qed.
Ltac wrap Hs :=
  repeat lazymatch goal with
  | |- calm (if ?b then _ else _) _ => destruct b
  | |- calm (ret _) _ => exact I
  | |- calm (bind (umul _ _) _) _ => apply calm_bind; [exact (fun _ => I)|intros ?]
  | |- calm (bind (aidx ?a _) _) _ =>
      match type of Hs with all_src a => eapply calm_then; [apply calm_aidx_src, Hs|intros ? ?]
      | _ => apply calm_bind; [eapply calm_any, calm_aidx|intros ?] end
  | |- calm (bind (orM _ _) _) _ => apply calm_bind; [calms|intros ?]
  end.
Lemma calm_rgb_rgb_w sd dd k w h l ss sb l' ds db : calm_1_1 k -> all_src sb ->
  calm (rgb_rgb_w sd dd k w h l ss sb l' ds db) any.
Proof.
  intros K Hs. unfold rgb_rgb_w. cbv zeta. wrap Hs. apply calm_bind; [apply K; assumption|intros ?; exact I].
Qed.
Lemma calm_rgb_i4xx_w sub dp k w h l ss sb l' ds db : calm_1_3 k -> all_src sb ->
  calm (rgb_i4xx_w sub dp k w h l ss sb l' ds db) any.
Proof.
  intros K Hs. unfold rgb_i4xx_w. cbv zeta. wrap Hs. apply calm_bind; [apply K; assumption|intros ?; exact I].
Qed.
Lemma calm_i4xx_rgb_w sub dp k w h l ss sb l' ds db : calm_3_1 k -> all_src sb ->
  calm (i4xx_rgb_w sub dp k w h l ss sb l' ds db) any.
Proof.
  intros K Hs. unfold i4xx_rgb_w. cbv zeta. wrap Hs. apply calm_bind; [apply K; assumption|intros ?; exact I].
Qed.
Lemma calm_rgb_nv12_w dp k w h l ss sb l' ds db : calm_1_2 k -> all_src sb ->
  calm (rgb_nv12_w dp k w h l ss sb l' ds db) any.
Proof.
  intros K Hs. unfold rgb_nv12_w. cbv zeta. wrap Hs. apply calm_bind.
  - calms.
  - intros [[yb uvb]|]; [|exact I]. wrap Hs. apply calm_bind; [apply K; assumption|intros ?; exact I].
Qed.
Lemma calm_nv12_rgb_w dp k w h l ss sb l' ds db : calm_2_1 k -> all_src sb ->
  calm (nv12_rgb_w dp k w h l ss sb l' ds db) any.
Proof.
  intros K Hs. unfold nv12_rgb_w. cbv zeta. wrap Hs.
  apply (calm_then _ _ (fun p => match p with Some s => is_src (fst s) /\ is_src (snd s) | None => True end)).
  - destruct (_ =? _).
    + apply calm_bind; [exact (fun _ => I)|intros ?]. destruct (_ <? _); [exact I|]. apply calm_bind; [exact (fun _ => I)|intros ?].
      eapply calm_then; [apply calm_split|intros p P]. apply P. assumption.
    + split; assumption.
  - intros [[yb uvb]|] P; [|exact I]. wrap Hs. apply calm_bind; [apply K; apply P|intros ?; exact I].
Qed.

(** ** The converters *)
Ltac converter H :=
  first [apply calm_rgb_rgb_w|apply calm_rgb_i4xx_w|apply calm_rgb_nv12_w|apply calm_i4xx_rgb_w|apply calm_nv12_rgb_w]; try exact H;
  try match goal with |- context [pf_depth ?d =? ?n] => destruct (pf_depth d =? n) end;
  try first [apply calm_hyb_1_1|apply calm_hyb_1_2|apply calm_hyb_1_3|apply calm_hyb_2_1|apply calm_hyb_3_1];
  auto using calm_bgr_rgb, calm_bgra_rgb, calm_rgb_bgra, calm_rgb_nv12, calm_rgb_i420, calm_rgb_i444,
    calm_nv12_bgra, calm_nv12_rgb, calm_i420_bgra, calm_i444_bgra.
Lemma calm_x86 c w h l ss sb l' ds db : all_src sb -> calm (x86_converter c w h l ss sb l' ds db) any.
Proof.
  intros H. destruct c as [s d|s d cs|s cs d]; [destruct s|destruct d|destruct s]; cbn [x86_converter]; converter H.
Qed.
Lemma calm_sse2 c w h l ss sb l' ds db : all_src sb -> calm (sse2_converter c w h l ss sb l' ds db) any.
Proof.
  intros H. destruct c as [s d|s d cs|s cs d]; [destruct s|destruct d|destruct s]; cbn [sse2_converter]; converter H;
    auto using calm_sse2_nv12, calm_sse2_i420, calm_sse2_i444, calm_sse2_nv12_bgra, calm_sse2_i420_bgra, calm_sse2_i444_bgra, calm_sse2_rgb_bgra.
Qed.
Lemma calm_avx2 c w h l ss sb l' ds db : all_src sb -> calm (avx2_converter c w h l ss sb l' ds db) any.
Proof.
  intros H. destruct c as [s d|s d cs|s cs d]; [destruct s|destruct d|destruct s]; cbn [avx2_converter]; converter H;
    auto using calm_avx2_nv12, calm_avx2_i420, calm_avx2_i444, calm_avx2_nv12_bgra, calm_avx2_nv12_rgb, calm_avx2_i420_bgra, calm_avx2_i444_bgra,
      calm_avx2_rgb_bgra, calm_avx2_bgr_rgb, calm_avx2_bgra_rgb.
Qed.
Lemma calm_neon c w h l ss sb l' ds db : all_src sb -> calm (neon_converter c w h l ss sb l' ds db) any.
Proof.
  intros H. destruct c as [s d|s d cs|s cs d]; [destruct s|destruct d|apply calm_x86, H]; cbn [neon_converter]; converter H;
    auto using calm_neon_nv12, calm_neon_i420, calm_neon_i444, calm_neon_bgr_rgb, calm_neon_bgra_rgb, calm_neon_rgb_bgra.
Qed.
Lemma calm_converter set c w h l ss sb l' ds db : all_src sb -> calm (converters set c w h l ss sb l' ds db) any.
Proof. destruct set; [apply calm_x86|apply calm_sse2|apply calm_avx2|apply calm_neon]. Qed.

(** ** Calls *)
Lemma calm_convert_image set w h sf ss sb df ds db : all_src sb ->
  calm (convert_image (converters set) w h sf ss sb df ds db) any.
Proof.
  intros H. unfold convert_image. cbv zeta.
  repeat lazymatch goal with
  | |- calm (converters _ _ _ _ _ _ _ _ _ _) _ => apply calm_converter, H
  | |- _ => calm_step
  end.
Qed.
Lemma calm_c_planes mk ptrs n : forall i l, Forall (fun s => exists k, s_plane s = mk k) l ->
  calm (c_planes mk ptrs i n l) (fun a => match a with Some l => Forall (fun s => exists k, s_plane s = mk k) l | None => True end).
Proof.
  induction n as [|n IH]; intros i l H; cbn [c_planes]; [exact H|].
  destruct (nth_error ptrs i) as [[|]|]; [|exact I|exact I].
  intros T. apply IH. apply Forall_app. split; [exact H|]. constructor; [exists i; reflexivity|constructor].
Qed.
Lemma calm_dcp set w h sf ss sp df ds dp e : calm (dcp_convert_image (converters set) w h sf ss sp df ds dp e) any.
Proof.
  unfold dcp_convert_image. destruct sf as [sf|], df as [df|], sp as [sp|], dp as [dp|]; try exact I.
  destruct (_ || _); [exact I|]. apply calm_bind; [calms|intros bad].
  destruct bad; [exact I|].
  eapply calm_then; [apply calm_c_planes; constructor|intros [sl|] Hs; [|exact I]].
  eapply calm_then; [apply calm_c_planes; constructor|intros [dl|] Hd; [|exact I]].
  cbn [calm]. intros T.
  apply (calm_then _ _ any); [|intros []; intros _; exact I].
  apply (calm_convert_image set w h). exact Hs.
Qed.
