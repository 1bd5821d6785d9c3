(** Failing conversions write nothing: the checks of the wrappers do not touch
    memory, and [false] is only returned by the checks. *)
From Coq Require Import ZArith List Bool Lia.
Import ListNotations.
From Verif Require Import Base Fmt Dispatch Common Scalar Wrappers Lib Spec ApiSpec Api ConvProofs LibFacts ApiProofs.
Open Scope Z_scope.

(** Commands that leave memory alone. *)
Definition pure {A} (c : M A) : Prop := forall T m v m', c T m = Ok v m' -> m' = m.
(** Commands that leave memory alone when they return [false]. *)
Definition quiet (c : M bool) : Prop := forall T m m', c T m = Ok false m' -> m' = m.

Lemma pure_ret {A} (a : A) : pure (ret a).
Proof. intros T m v m' H. injection H as _ <-. reflexivity. Qed.
Lemma pure_raise {A} f : pure (@raise A f).
Proof. intros T m v m' H. discriminate. Qed.
Lemma pure_bind {A B} (c : M A) (k : A -> M B) : pure c -> (forall a, pure (k a)) -> pure (bind c k).
Proof.
  intros Hc Hk T m v m' H. (unfold bind in H; cbn [run] in H). destruct (c T m) as [a m1|] eqn:E; [|discriminate].
  apply Hc in E. subst m1. eapply Hk; eauto.
Qed.
Lemma pure_if {A} (b : bool) (c d : M A) : pure c -> pure d -> pure (if b then c else d).
Proof. destruct b; auto. Qed.
Lemma pure_ures r : pure (ures r).
Proof.
  intros T m v m' H. (unfold ures in H; cbn [run] in H). destruct ((0 <=? r) && (r <? usz T)); [congruence|].
  destruct (checked T); congruence.
Qed.
Lemma pure_umul a b : pure (umul a b). Proof. apply pure_ures. Qed.
Lemma pure_usub a b : pure (usub a b). Proof. apply pure_ures. Qed.
Lemma pure_aidx {A} (a : arr A) i : pure (aidx a i).
Proof. unfold aidx. apply pure_if; [destruct nth_error|]; auto using pure_ret, pure_raise. Qed.
Lemma pure_index {A} (a : list A) i : pure (index a i).
Proof. unfold index. apply pure_if; [destruct nth_error|]; auto using pure_ret, pure_raise. Qed.
Lemma pure_split_at s i : pure (split_at s i).
Proof. unfold split_at. apply pure_if; auto using pure_ret, pure_raise. Qed.
Lemma pure_orM a b : pure a -> pure b -> pure (orM a b).
Proof. intros. unfold orM. apply pure_bind; auto. intros []; auto using pure_ret. Qed.
Lemma pure_oob_call l s h r : pure (oob_call l s h r).
Proof.
  unfold oob_call. apply pure_bind; [apply pure_usub|]. intros k T m v m' H. unfold out_of_bounds in H. cbn [run] in H.
  revert H. apply pure_if; [apply pure_ret|]. apply pure_if; [apply pure_ret|].
  apply pure_if; [apply pure_ret|]. apply pure_bind; [apply pure_umul|]. intros.
  apply pure_bind; [apply pure_usub|]. intros. apply pure_ret.
Qed.

Lemma quiet_pure c : pure c -> quiet c.
Proof. intros H T m m'. apply H. Qed.
Lemma quiet_bind {A} (c : M A) (k : A -> M bool) : pure c -> (forall a, quiet (k a)) -> quiet (bind c k).
Proof.
  intros Hc Hk T m m' H. (unfold bind in H; cbn [run] in H). destruct (c T m) as [a m1|] eqn:E; [|discriminate].
  apply Hc in E. subst m1. eapply Hk; eauto.
Qed.
Lemma quiet_if (b : bool) (c d : M bool) : quiet c -> quiet d -> quiet (if b then c else d).
Proof. destruct b; auto. Qed.
Lemma quiet_true {A} (c : M A) : quiet (c ;; ret true).
Proof. intros T m m' H. (unfold bind, ret in H; cbn [run] in H). destruct (c T m); discriminate. Qed.
Lemma quiet_ret b : quiet (ret b).
Proof. apply quiet_pure, pure_ret. Qed.

Ltac quiet :=
  repeat match goal with
  | |- quiet (if _ then _ else _) => apply quiet_if
  | |- quiet (ret _) => apply quiet_ret
  | |- quiet (_ ;; ret true) => apply quiet_true
  | |- quiet (bind _ _) => apply quiet_bind; [|intros ?]
  | |- pure (if _ then _ else _) => apply pure_if
  | |- pure (ret _) => apply pure_ret
  | |- pure (bind _ _) => apply pure_bind; [|intros ?]
  | |- pure (orM _ _) => apply pure_orM
  | |- pure (oob_call _ _ _ _) => apply pure_oob_call
  | |- pure (umul _ _) => apply pure_umul
  | |- pure (aidx _ _) => apply pure_aidx
  | |- pure (split_at _ _) => apply pure_split_at
  | |- quiet (match ?x with None => _ | Some _ => _ end) => destruct x as [[? ?]|]
  end.

Lemma quiet_nv12_rgb d k w h l1 a b l2 c e : quiet (nv12_rgb_w d k w h l1 a b l2 c e).
Proof. unfold nv12_rgb_w. quiet. Qed.
Lemma quiet_i4xx_rgb s d k w h l1 a b l2 c e : quiet (i4xx_rgb_w s d k w h l1 a b l2 c e).
Proof. unfold i4xx_rgb_w. quiet. Qed.
Lemma quiet_rgb_i4xx s d k w h l1 a b l2 c e : quiet (rgb_i4xx_w s d k w h l1 a b l2 c e).
Proof. unfold rgb_i4xx_w. quiet. Qed.
Lemma quiet_rgb_nv12 d k w h l1 a b l2 c e : quiet (rgb_nv12_w d k w h l1 a b l2 c e).
Proof. unfold rgb_nv12_w. quiet. Qed.
Lemma quiet_rgb_rgb s d k w h l1 a b l2 c e : quiet (rgb_rgb_w s d k w h l1 a b l2 c e).
Proof. unfold rgb_rgb_w. quiet. Qed.

Section Quiet.
Variable T : target.
Variable A : pixel_format -> pixel_format -> Z -> columns.
Variable slack : pixel_format -> sampler -> Z -> Z.
Variable impl : conv -> converter.
Hypothesis HI : impl_ok T A slack impl.

Lemma quiet_converter src dst w h l1 a b l2 c e :
  valid_image src w h -> valid_image dst w h -> supported (i_pf src) (i_pf dst) = true ->
  quiet (impl (conv_of (i_pf src) (i_pf dst) (i_cs src) (i_cs dst)) w h l1 a b l2 c e).
Proof.
  intros (Cs & Ns & Zs) (Cd & Nd & Zd) Hsup.
  unfold valid_colors in *.
  assert (RYUV : is_rgb (i_pf src) = false -> i_cs src <> CsRgb).
  { intros E F. apply Cs in F. congruence. }
  assert (DYUV : is_rgb (i_pf dst) = false -> i_cs dst <> CsRgb).
  { intros E F. apply Cd in F. congruence. }
  assert (FWD : is_rgb (i_pf dst) = false -> exists smp, i_pf src = kfmt smp).
  { intros E. destruct (i_pf src) eqn:Ps, (i_pf dst) eqn:Pd; try discriminate;
      [exists S_Argb|exists S_Argb|exists S_Argb|exists S_Bgra|exists S_Bgra|exists S_Bgra
      |exists S_Bgr|exists S_Bgr|exists S_Bgr]; reflexivity. }
  destruct (is_rgb (i_pf dst)) eqn:Rd.
  - destruct (is_rgb (i_pf src)) eqn:Rs; unfold conv_of; rewrite ?Rs, ?Rd.
    + destruct (io_rgb T A slack impl HI (i_pf src) (i_pf dst) Rs Rd Hsup) as (k & -> & K).
      apply quiet_rgb_rgb.
    + destruct (cs_of_colorimetry _ (RYUV eq_refl)) as [cc Ec]. rewrite Ec.
      destruct (i_pf src) eqn:Ps; try discriminate.
      * destruct (io_i444r T A slack impl HI (i_pf dst) cc Hsup) as (k & -> & K). apply quiet_i4xx_rgb.
      * destruct (io_i420r T A slack impl HI (i_pf dst) cc Hsup) as (k & -> & K). apply quiet_i4xx_rgb.
      * destruct (io_nv12r T A slack impl HI (i_pf dst) cc Hsup) as (k & -> & K). apply quiet_nv12_rgb.
  - destruct (FWD eq_refl) as [smp Ps]. rewrite Ps.
    destruct (cs_of_colorimetry _ (DYUV eq_refl)) as [cc Ec].
    unfold conv_of. rewrite Rd, Ec.
    replace (is_rgb (kfmt smp)) with true by (destruct smp; reflexivity).
    destruct (i_pf dst) eqn:Pd; try discriminate.
    + destruct (io_i444 T A slack impl HI smp cc) as (k & -> & K). apply quiet_rgb_i4xx.
    + exfalso. rewrite Ps in Hsup. destruct smp; discriminate.
    + destruct (io_i420 T A slack impl HI smp cc) as (k & -> & K). apply quiet_rgb_i4xx.
    + destruct (io_nv12 T A slack impl HI smp cc) as (k & -> & K). apply quiet_rgb_nv12.
Qed.

(** Any error of [convert_image], for any arguments. *)
Lemma convert_image_quiet src dst w h ss sb ds db m e m' :
  planes_u32 src -> planes_u32 dst ->
  convert_image impl w h (format_of src) ss sb (format_of dst) ds db T m = Ok (Err e) m' -> m' = m.
Proof.
  intros Us Ud H.
  destruct (convert_image_cases impl w h src ss sb dst ds db T m Us Ud) as [[_ E]|[(_ & _ & _ & E)|(Vs & Vd & Hsup & E)]];
    rewrite E in H; [congruence|congruence|].
  (unfold call_converter, bind, ret in H; cbn [run] in H).
  pose proof (quiet_converter src dst w h (u32 (i_planes src - 1)) (strides_or_default ss) sb
                (u32 (i_planes dst - 1)) (strides_or_default ds) db Vs Vd Hsup T m) as Q.
  destruct (impl _ _ _ _ _ _ _ _ _ T m) as [b m1|f]; [|discriminate].
  destruct b; [discriminate|]. injection H as _ <-. apply Q. reflexivity.
Qed.

(** And no error other than these two before the converter is called. *)
Lemma convert_image_errors src dst w h ss sb ds db m :
  planes_u32 src -> planes_u32 dst ->
  let r := convert_image impl w h (format_of src) ss sb (format_of dst) ds db T m in
  let valid := valid_image src w h /\ valid_image dst w h in
  ((exists m', r = Ok (Err InvalidValue) m') <-> ~ valid) /\
  ((exists m', r = Ok (Err InvalidOperation) m') <-> valid /\ supported (i_pf src) (i_pf dst) = false).
Proof.
  intros Us Ud r valid.
  destruct (convert_image_cases impl w h src ss sb dst ds db T m Us Ud) as [[N E]|[(Vs & Vd & Hsup & E)|(Vs & Vd & Hsup & E)]];
    fold r in E; rewrite E; clear E.
  - split; split; intros H; try tauto; eauto.
    destruct H as [m' H]. discriminate.
  - split; split; intros H; eauto; try (destruct H as [m' H]; discriminate).
    + exfalso. apply H. split; auto.
    + split; auto. split; auto.
  - assert (forall e m', call_converter impl w h src dst ss sb ds db T m = Ok (Err e) m' -> e = NotEnoughData).
    { intros e m' H. (unfold call_converter, bind, ret in H; cbn [run] in H). destruct (impl _ _ _ _ _ _ _ _ _ T m) as [[] ?|]; congruence. }
    split; split; intros HH.
    + destruct HH as [m' HH]. apply H in HH. discriminate.
    + exfalso. apply HH. split; auto.
    + destruct HH as [m' HH]. apply H in HH. discriminate.
    + destruct HH as [_ HH]. congruence.
Qed.
End Quiet.
