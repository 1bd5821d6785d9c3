(** Runs on two targets that only differ in the byte order of words. *)
From Coq Require Import ZArith List Bool Lia ZifyBool ZifyNat.
Import ListNotations.
From Verif Require Import Base Fmt Common Scalar Wrappers CpuInfo Lib Sets Spec SetSpec ApiSpec Api Exec LibFacts EndianSpec Trace CourseSpec.
Open Scope Z_scope.
Ltac Zify.zify_post_hook ::= Z.div_mod_to_equations.

Lemma traced_pair {A} T (c : M A) : forall m, traced c T m = (fst (traced c T m), c T m).
Proof.
  enough (E : forall m, snd (traced c T m) = c T m) by (intros m; rewrite <- E; apply surjective_pairing).
  induction c as [a|f|A B c IH k IHk|A k IH|A r k IH|A r k IH|A s i k IH|A s i v k IH]; intros m; cbn [traced run]; auto.
  - specialize (IH m). destruct (traced c T m) as [l [a m'|f]]; cbn [snd] in IH; rewrite <- IH; [|reflexivity].
    specialize (IHk a m'). destruct (traced (k a) T m') as [l' r]. exact IHk.
  - destruct (_ && _); [apply IH|]. destruct (checked T); [reflexivity|apply IH].
  - destruct (_ && _); [apply IH|]. destruct (checked T); [reflexivity|apply IH].
  - destruct (_ && _); [|reflexivity].
    match goal with |- context [traced (k ?x) T m] => specialize (IH x m); destruct (traced (k x) T m) as [l r] end. exact IH.
  - destruct (s_plane s) as [n|n]; [reflexivity|]. destruct (_ && _); [|reflexivity].
    match goal with |- context [traced (k tt) T ?x] => specialize (IH tt x); destruct (traced (k tt) T x) as [l r] end. exact IH.
Qed.

Section Rel.
Variables T T' : target.
Hypothesis HA : alike T T'.
Variable P : mem -> mem -> Prop.

(** Both runs touch the same positions in the same order; they stop with the same fault, or both
    finish with related values and memories. *)
Definition rel {A} (R : A -> A -> Prop) (c1 c2 : M A) : Prop := forall m1 m2, P m1 m2 ->
  map position (fst (traced c1 T m1)) = map position (fst (traced c2 T' m2)) /\
  match c1 T m1, c2 T' m2 with
  | Ok a m1', Ok b m2' => R a b /\ P m1' m2'
  | Fault f, Fault g => f = g
  | _, _ => False
  end.

Lemma rel_bind {A B} (R : A -> A -> Prop) (Q : B -> B -> Prop) c1 c2 k1 k2 :
  rel R c1 c2 -> (forall a b, R a b -> rel Q (k1 a) (k2 b)) -> rel Q (bind c1 k1) (bind c2 k2).
Proof.
  intros Hc Hk m1 m2 Hm. destruct (Hc m1 m2 Hm) as [Ht Hc']. unfold bind. cbn [run traced].
  rewrite (traced_pair T c1 m1), (traced_pair T' c2 m2).
  destruct (c1 T m1) as [a m1'|f], (c2 T' m2) as [b m2'|g]; try contradiction.
  - destruct Hc' as [Hr Hm']. destruct (Hk a b Hr m1' m2' Hm') as [Ht' Hk'].
    rewrite (traced_pair T (k1 a) m1'), (traced_pair T' (k2 b) m2'). cbn [fst]. rewrite !map_app, Ht, Ht'. auto.
  - split; [exact Ht|exact Hc'].
Qed.
Lemma rel_bind_eq {A B} (Q : B -> B -> Prop) (c1 c2 : M A) k1 k2 :
  rel eq c1 c2 -> (forall a, rel Q (k1 a) (k2 a)) -> rel Q (bind c1 k1) (bind c2 k2).
Proof. intros H1 H2. eapply rel_bind; [exact H1|]. intros a b <-. apply H2. Qed.
Lemma rel_value {A} (R : A -> A -> Prop) (a b : A) : R a b -> rel R (ret a) (ret b).
Proof. intros H m1 m2 Hm. split; [reflexivity|]. split; auto. Qed.
Lemma rel_ret {A} (a : A) : rel eq (ret a) (ret a).
Proof. apply rel_value. reflexivity. Qed.
Lemma rel_raise {A} (R : A -> A -> Prop) f : rel R (raise f) (raise f).
Proof. intros m1 m2 Hm. split; reflexivity. Qed.
Lemma rel_if {A} (R : A -> A -> Prop) (b : bool) c1 c2 d1 d2 :
  rel R c1 c2 -> rel R d1 d2 -> rel R (if b then c1 else d1) (if b then c2 else d2).
Proof. destruct b; auto. Qed.
Lemma rel_ures r : rel eq (ures r) (ures r).
Proof.
  intros m1 m2 Hm. destruct HA as [E1 E2]. unfold ures. cbn [run traced]. rewrite E1, E2.
  destruct ((0 <=? r) && (r <? usz T')); [auto|]. destruct (checked T'); auto.
Qed.
Lemma rel_ires r : rel eq (ires r) (ires r).
Proof.
  intros m1 m2 Hm. destruct HA as [E1 E2]. unfold ires. cbn [run traced]. rewrite E2.
  destruct ((- 2 ^ 31 <=? r) && (r <? 2 ^ 31)); [auto|]. destruct (checked T'); auto.
Qed.
Lemma rel_out_of_bounds a b c d : rel eq (out_of_bounds a b c d) (out_of_bounds a b c d).
Proof.
  intros m1 m2 Hm. unfold out_of_bounds. cbn [run traced].
  replace (usize_max T) with (usize_max T') by (unfold usize_max; destruct HA as [-> _]; reflexivity).
  generalize m1 m2 Hm. change (rel eq (if a <? b then ret true else if c =? 0 then ret false
    else if usize_max T' / c <? d then ret true else x <- umul d c ;; y <- usub a b ;; ret (y <? x))
    (if a <? b then ret true else if c =? 0 then ret false
    else if usize_max T' / c <? d then ret true else x <- umul d c ;; y <- usub a b ;; ret (y <? x))).
  repeat apply rel_if; try apply rel_ret.
  apply rel_bind_eq; [apply rel_ures|intros x]. apply rel_bind_eq; [apply rel_ures|intros y]. apply rel_ret.
Qed.
Lemma rel_for_from n : forall i f1 f2, (forall i, rel eq (f1 i) (f2 i)) -> rel eq (for_from n i f1) (for_from n i f2).
Proof.
  induction n as [|n IH]; intros i f1 f2 H; cbn [for_from]; [apply rel_ret|].
  apply rel_bind_eq; [apply H|intros _; apply IH; auto].
Qed.
Lemma rel_for n f1 f2 : (forall i, rel eq (f1 i) (f2 i)) -> rel eq (for_ n f1) (for_ n f2).
Proof. apply rel_for_from. Qed.
Lemma rel_loop {S} n : forall (s : S) f1 f2, (forall s, rel eq (f1 s) (f2 s)) -> rel eq (loop n s f1) (loop n s f2).
Proof.
  induction n as [|n IH]; intros s f1 f2 H; cbn [loop]; [apply rel_ret|].
  apply rel_bind_eq; [apply H|intros s'; apply IH; auto].
Qed.
End Rel.

Ltac head t := match t with ?f _ => head f | _ => t end.
Ltac rel_step HA :=
  lazymatch goal with
  | |- rel _ _ _ _ (bind _ _) _ => apply rel_bind_eq; [|intros ?]
  | |- rel _ _ _ _ (ret _) _ => apply rel_ret
  | |- rel _ _ _ _ (raise _) _ => apply rel_raise
  | |- rel _ _ _ _ (if ?b then _ else _) _ => destruct b
  | |- rel _ _ _ _ (for_ _ _) _ => apply rel_for; intros ?
  | |- rel _ _ _ _ (for_from _ _ _) _ => apply rel_for_from; intros ?
  | |- rel _ _ _ _ (loop _ _ _) _ => apply rel_loop; intros ?
  | |- rel _ _ _ _ (ures _) _ => apply rel_ures; exact HA
  | |- rel _ _ _ _ (ires _) _ => apply rel_ires; exact HA
  | |- rel _ _ _ _ (out_of_bounds _ _ _ _) _ => apply rel_out_of_bounds; exact HA
  | |- rel _ _ _ _ (match ?x with _ => _ end) _ => destruct x
  | |- rel _ _ _ _ ?c _ => let f := head c in unfold f; cbv zeta
  end.

(** ** Byte accesses: equal runs *)
Section Equal.
Variables T T' : target.
Hypothesis HA : alike T T'.
Notation same := (rel T T' eq eq).

Lemma same_ld s i : same (ld s i) (ld s i).
Proof. intros m1 m2 <-. unfold ld. cbn [run traced]. destruct (_ && _ && _ && _); auto. Qed.
Lemma same_st s i v : same (st s i v) (st s i v).
Proof. intros m1 m2 <-. unfold st. cbn [run traced]. destruct (s_plane s); auto. destruct (_ && _ && _ && _); auto. Qed.

Lemma same_run {A} (c : M A) : same c c -> forall m, c T m = c T' m.
Proof.
  intros H m. destruct (H m m eq_refl) as [_ H']. clear H. rename H' into H. destruct (c T m), (c T' m); try contradiction.
  - destruct H as [-> ->]. reflexivity.
  - rewrite H. reflexivity.
Qed.

Ltac same :=
  repeat lazymatch goal with
  | |- rel _ _ _ _ (ld _ _) _ => apply same_ld
  | |- rel _ _ _ _ (st _ _ _) _ => apply same_st
  | |- _ => rel_step HA
  end.

Definition same_1_2 (k : kernel_1_2) := forall w h ss s ds d, same (k w h ss s ds d) (k w h ss s ds d).
Definition same_1_3 (k : kernel_1_3) := forall w h ss s ds d, same (k w h ss s ds d) (k w h ss s ds d).
Definition same_2_1 (k : kernel_2_1) := forall w h ss s ds d, same (k w h ss s ds d) (k w h ss s ds d).
Definition same_3_1 (k : kernel_3_1) := forall w h ss s ds d, same (k w h ss s ds d) (k w h ss s ds d).

Lemma same_rgb_nv12 smp d c : same_1_2 (rgb_to_nv12 smp d c).
Proof. intros w h ss s ds dd. unfold rgb_to_nv12. same. Qed.
Lemma same_rgb_i420 smp d c : same_1_3 (rgb_to_i420 smp d c).
Proof. intros w h ss s ds dd. unfold rgb_to_i420. same. Qed.
Lemma same_rgb_i444 smp d c : same_1_3 (rgb_to_i444 smp d c).
Proof. intros w h ss s ds dd. unfold rgb_to_i444. same. Qed.
Lemma same_nv12_bgra c r : same_2_1 (nv12_to_bgra c r).
Proof. intros w h ss s ds dd. unfold nv12_to_bgra. same. Qed.
Lemma same_nv12_rgb c : same_2_1 (nv12_to_rgb c).
Proof. intros w h ss s ds dd. unfold nv12_to_rgb. same. Qed.
Lemma same_i420_bgra c r : same_3_1 (i420_to_bgra c r).
Proof. intros w h ss s ds dd. unfold i420_to_bgra. same. Qed.
Lemma same_i444_bgra c r : same_3_1 (i444_to_bgra c r).
Proof. intros w h ss s ds dd. unfold i444_to_bgra. same. Qed.

Lemma limit_small w : 0 <= w < 8 -> Z.to_nat ((lower_multiple_of_pot w 8 + 7) / 8) = O.
Proof.
  intros H. unfold lower_multiple_of_pot. change (8 - 1) with (Z.ones 3). rewrite Z.land_ones by lia.
  change (2 ^ 3) with 8. rewrite Z.mod_small by lia. replace (w - w + 7) with 7 by lia. reflexivity.
Qed.
Lemma same_bgr_rgb w h ss s ds d : 0 <= w < 8 -> same (bgr_to_rgb w h ss s ds d) (bgr_to_rgb w h ss s ds d).
Proof. intros H. unfold bgr_to_rgb. cbv zeta. rewrite limit_small by lia. cbn [loop]. same. Qed.
Lemma same_bgra_rgb w h ss s ds d : 0 <= w < 8 -> same (bgra_to_rgb w h ss s ds d) (bgra_to_rgb w h ss s ds d).
Proof. intros H. unfold bgra_to_rgb. cbv zeta. rewrite limit_small by lia. cbn [loop]. same. Qed.
End Equal.

(** ** Word accesses: equal up to the destination bytes *)
Definition same_shape (m1 m2 : mem) : Prop :=
  srcs m1 = srcs m2 /\ map (@length Z) (dsts m1) = map (@length Z) (dsts m2).

Section Shape.
Variables T T' : target.
Hypothesis HA : alike T T'.
Notation like R := (rel T T' same_shape R).
Definition any {A} (a b : A) : Prop := True.

Lemma shape_nth m1 m2 n : same_shape m1 m2 -> length (nth n (dsts m1) []) = length (nth n (dsts m2) []).
Proof.
  intros [_ H]. change 0%nat with (@length Z []). 
  rewrite <- !(map_nth (@length Z)), H. reflexivity.
Qed.
Lemma like_ld s i : like any (ld s i) (ld s i).
Proof.
  intros m1 m2 Hm. unfold ld. cbn [run traced]. destruct (s_plane s) as [n|n]; cbn [plane_bytes].
  - rewrite (proj1 Hm). destruct (_ && _ && _ && _); (split; [reflexivity|]); [split; [exact I|exact Hm]|reflexivity].
  - unfold zlen. rewrite (shape_nth m1 m2 n Hm). destruct (_ && _ && _ && _); (split; [reflexivity|]); [split; [exact I|exact Hm]|reflexivity].
Qed.
Lemma like_st s i v v' : like eq (st s i v) (st s i v').
Proof.
  intros m1 m2 Hm. unfold st. cbn [run traced]. destruct (s_plane s) as [n|n]; [split; reflexivity|].
  unfold zlen. rewrite (shape_nth m1 m2 n Hm). destruct (_ && _ && _ && _); (split; [reflexivity|]); [|reflexivity].
  split; [reflexivity|]. destruct Hm as [H1 H2]. split; cbn [srcs dsts]; [exact H1|].
  assert (U : forall (l : list (list Z)) b, length b = length (nth n l []) -> map (@length Z) (upd l n b) = map (@length Z) l).
  { clear. induction n as [|n IH]; intros [|x l] b Hb; cbn in *; try reflexivity; f_equal; auto. }
  rewrite !U by apply upd_length. exact H2.
Qed.
Lemma like_ldn s n : forall i, like (fun a b => length a = length b) (ldn s i n) (ldn s i n).
Proof.
  induction n as [|n IH]; intros i; cbn [ldn].
  - apply rel_value. reflexivity.
  - eapply rel_bind; [apply like_ld|intros x y _]. eapply rel_bind; [apply IH|intros l l' E].
    apply rel_value. cbn in *. congruence.
Qed.
Lemma like_stn s l : forall l' i, length l = length l' -> like eq (stn s i l) (stn s i l').
Proof.
  induction l as [|b l IH]; intros [|b' l'] i E; try discriminate E; cbn [stn]; [apply rel_ret|].
  apply rel_bind_eq; [apply like_st|intros _]. apply IH. injection E; auto.
Qed.
Lemma like_in_order l l' : length l = length l' -> like (fun a b => length a = length b) (in_order l) (in_order l').
Proof. intros E m1 m2 Hm. unfold in_order. cbn [run traced]. split; [reflexivity|]. split; [|auto]. destruct (big T), (big T'); rewrite ?rev_length; auto. Qed.
Lemma like_ld_word n s i : like any (ld_word n s i) (ld_word n s i).
Proof.
  unfold ld_word. eapply rel_bind; [apply like_ldn|intros l l' E]. eapply rel_bind; [apply like_in_order; exact E|].
  intros a b _. apply rel_value. exact I.
Qed.
Lemma like_st_word n s i v v' : like eq (st_word n s i v) (st_word n s i v').
Proof.
  unfold st_word. eapply rel_bind; [apply like_in_order|intros l l' E; apply like_stn; exact E].
  assert (L : forall n x, length (to_bytes n x) = n) by (clear; induction n; intros; cbn [to_bytes length]; auto).
  rewrite !L. reflexivity.
Qed.
Lemma like_load {B} (Q : B -> B -> Prop) (c : M Z) k1 k2 : like any c c ->
  (forall a b, like Q (k1 a) (k2 b)) -> like Q (bind c k1) (bind c k2).
Proof. intros H1 H2. eapply rel_bind; [exact H1|intros a b _; apply H2]. Qed.

Ltac like :=
  repeat lazymatch goal with
  | |- rel _ _ _ _ (bind (ld _ _) _) _ => apply like_load; [apply like_ld|intros ? ?]
  | |- rel _ _ _ _ (bind (ld_u64 _ _) _) _ => apply like_load; [apply like_ld_word|intros ? ?]
  | |- rel _ _ _ _ (bind (ld_u32 _ _) _) _ => apply like_load; [apply like_ld_word|intros ? ?]
  | |- rel _ _ _ _ (st _ _ _) _ => apply like_st
  | |- rel _ _ _ _ (st_u64 _ _ _) _ => apply like_st_word
  | |- rel _ _ _ _ (st_u32 _ _ _) _ => apply like_st_word
  | |- rel _ _ _ _ (let '(_, _) := bgr_to_rgb_words ?a ?b ?c in _) (let '(_, _) := bgr_to_rgb_words ?a' ?b' ?c' in _) =>
      destruct (bgr_to_rgb_words a b c) as [[? ?] ?], (bgr_to_rgb_words a' b' c') as [[? ?] ?]
  | |- _ => rel_step HA
  end.

Definition like_1_1 (k : kernel_1_1) := forall w h ss s ds d, like eq (k w h ss s ds d) (k w h ss s ds d).
Lemma like_bgr_rgb : like_1_1 bgr_to_rgb.
Proof. intros w h ss s ds d. unfold bgr_to_rgb. like. Qed.
Lemma like_bgra_rgb : like_1_1 bgra_to_rgb.
Proof. intros w h ss s ds d. unfold bgra_to_rgb. like. Qed.
Lemma like_rgb_bgra : like_1_1 rgb_to_bgra.
Proof. intros w h ss s ds d. unfold rgb_to_bgra. like. Qed.
End Shape.

(** ** The wrappers and the call *)
Section Wrap.
Variables T T' : target.
Hypothesis HA : alike T T'.
Variable P : mem -> mem -> Prop.
Notation R := (rel T T' P eq).

Ltac wrap Hk := unfold orM, oob_call;
  repeat lazymatch goal with
  | |- rel _ _ _ _ (bind (bind _ _) _) _ => apply rel_bind_eq; [|intros ?]
  | |- _ => first [apply Hk|rel_step HA]
  end.

Lemma wrap_rgb_rgb sd dd k w h l ss sb l' ds db :
  (forall ss s ds d, R (k w h ss s ds d) (k w h ss s ds d)) ->
  R (rgb_rgb_w sd dd k w h l ss sb l' ds db) (rgb_rgb_w sd dd k w h l ss sb l' ds db).
Proof. intros Hk. unfold rgb_rgb_w. cbv zeta. wrap Hk. Qed.
Lemma wrap_nv12_rgb dd k w h l ss sb l' ds db :
  (forall w h ss s ds d, R (k w h ss s ds d) (k w h ss s ds d)) ->
  R (nv12_rgb_w dd k w h l ss sb l' ds db) (nv12_rgb_w dd k w h l ss sb l' ds db).
Proof. intros Hk. unfold nv12_rgb_w. cbv zeta. wrap Hk. Qed.
Lemma wrap_i4xx_rgb n dd k w h l ss sb l' ds db :
  (forall w h ss s ds d, R (k w h ss s ds d) (k w h ss s ds d)) ->
  R (i4xx_rgb_w n dd k w h l ss sb l' ds db) (i4xx_rgb_w n dd k w h l ss sb l' ds db).
Proof. intros Hk. unfold i4xx_rgb_w. cbv zeta. wrap Hk. Qed.
Lemma wrap_rgb_i4xx n dd k w h l ss sb l' ds db :
  (forall w h ss s ds d, R (k w h ss s ds d) (k w h ss s ds d)) ->
  R (rgb_i4xx_w n dd k w h l ss sb l' ds db) (rgb_i4xx_w n dd k w h l ss sb l' ds db).
Proof. intros Hk. unfold rgb_i4xx_w. cbv zeta. wrap Hk. Qed.
Lemma wrap_rgb_nv12 dd k w h l ss sb l' ds db :
  (forall w h ss s ds d, R (k w h ss s ds d) (k w h ss s ds d)) ->
  R (rgb_nv12_w dd k w h l ss sb l' ds db) (rgb_nv12_w dd k w h l ss sb l' ds db).
Proof. intros Hk. unfold rgb_nv12_w. cbv zeta. wrap Hk. Qed.

Lemma wrap_compatible pf w h l : R (is_compatible pf w h l) (is_compatible pf w h l).
Proof. unfold is_compatible. wrap I. Qed.
Lemma wrap_fill h spec strides : forall i out, R (fill_sizes h spec strides i out) (fill_sizes h spec strides i out).
Proof.
  induction strides as [|x strides IH]; intros i [|o out]; cbn [fill_sizes]; try apply rel_ret.
  apply rel_bind_eq; [apply rel_ures; exact HA|intros a]. apply rel_bind_eq; [apply IH|intros b]. apply rel_ret.
Qed.
Lemma wrap_size w h f s out : R (get_buffers_size w h f s out) (get_buffers_size w h f s out).
Proof. unfold get_buffers_size. wrap wrap_fill. Qed.
Lemma wrap_convert impl w h sf ss sb df ds db :
  (forall c l l', R (impl c w h l (strides_or_default ss) sb l' (strides_or_default ds) db)
                    (impl c w h l (strides_or_default ss) sb l' (strides_or_default ds) db)) ->
  R (convert_image impl w h sf ss sb df ds db) (convert_image impl w h sf ss sb df ds db).
Proof. intros Hk. unfold convert_image. cbv zeta. wrap Hk. Qed.
End Wrap.

Section Calls.
Variables T T' : target.
Hypothesis HA : alike T T'.

Lemma converter_same c w h l ss sb l' ds db :
  match c with Rgb_rgb Bgr _ | Rgb_rgb Bgra _ => 0 <= w < 8 | Rgb_rgb _ _ => False | _ => True end ->
  rel T T' eq eq (x86_converter c w h l ss sb l' ds db) (x86_converter c w h l ss sb l' ds db).
Proof.
  intros H. destruct c as [s d|s d cs|s cs d].
  - destruct s; try contradiction; cbn [x86_converter]; apply (wrap_rgb_rgb T T' HA); intros;
      [apply same_bgra_rgb|apply same_bgr_rgb]; auto.
  - destruct d; cbn [x86_converter]; unfold x86_rgb_i420, x86_rgb_i444, x86_rgb_nv12;
      lazymatch goal with
      | |- rel _ _ _ _ (rgb_nv12_w _ _ _ _ _ _ _ _ _ _) _ => apply (wrap_rgb_nv12 T T' HA), (same_rgb_nv12 T T' HA)
      | |- rel _ _ _ _ (rgb_i4xx_w 2 _ _ _ _ _ _ _ _ _ _) _ => apply (wrap_rgb_i4xx T T' HA), (same_rgb_i420 T T' HA)
      | |- rel _ _ _ _ (rgb_i4xx_w 1 _ _ _ _ _ _ _ _ _ _) _ => apply (wrap_rgb_i4xx T T' HA), (same_rgb_i444 T T' HA)
      end.
  - destruct s; cbn [x86_converter]; unfold x86_i420_rgb, x86_i444_rgb, x86_nv12_rgb;
      lazymatch goal with
      | |- rel _ _ _ _ (nv12_rgb_w ?d _ _ _ _ _ _ _ _ _) _ =>
          apply (wrap_nv12_rgb T T' HA); destruct (d =? 4); [apply (same_nv12_bgra T T' HA)|apply (same_nv12_rgb T T' HA)]
      | |- rel _ _ _ _ (i4xx_rgb_w 2 _ _ _ _ _ _ _ _ _ _) _ => apply (wrap_i4xx_rgb T T' HA), (same_i420_bgra T T' HA)
      | |- rel _ _ _ _ (i4xx_rgb_w 1 _ _ _ _ _ _ _ _ _ _) _ => apply (wrap_i4xx_rgb T T' HA), (same_i444_bgra T T' HA)
      end.
Qed.

Lemma converter_like c w h l ss sb l' ds db :
  match c with Rgb_rgb _ _ => True | _ => False end ->
  rel T T' same_shape eq (x86_converter c w h l ss sb l' ds db) (x86_converter c w h l ss sb l' ds db).
Proof.
  intros H. destruct c as [s d| |]; try contradiction.
  destruct s; cbn [x86_converter]; apply (wrap_rgb_rgb T T' HA); intros;
    first [apply (like_bgra_rgb T T' HA)|apply (like_bgr_rgb T T' HA)|apply (like_rgb_bgra T T' HA)].
Qed.

Lemma supported_rgb s d : supported s d = true -> is_rgb s = true -> is_rgb d = true ->
  (s = Bgr /\ d = Rgb) \/ (s = Bgra /\ d = Rgb) \/ (s = Rgb /\ d = Bgra).
Proof. destruct s, d; intros; try discriminate; auto. Qed.

Lemma byte_wise_same w h src dst sb db : planes_u32 src -> planes_u32 dst -> byte_wise src dst w ->
  convert (converters X86) T w h src dst sb db = convert (converters X86) T' w h src dst sb db.
Proof.
  intros Us Ud B. unfold convert.
  set (ss := option_map arr_of (i_strides src)). set (ds := option_map arr_of (i_strides dst)).
  set (a := arr_of (rust_slices Src sb)). set (b := arr_of (rust_slices Dst db)). set (m := Mem sb db).
  destruct (convert_image_cases (converters X86) w h src ss a dst ds b T m Us Ud) as [[N ->]|[(V1 & V2 & N & ->)|(V1 & V2 & S & ->)]];
  destruct (convert_image_cases (converters X86) w h src ss a dst ds b T' m Us Ud) as [[N' ->]|[(V1' & V2' & N' & ->)|(V1' & V2' & S' & ->)]];
    try reflexivity; try tauto; try congruence.
  apply same_run. unfold call_converter. apply rel_bind_eq; [|intros; apply rel_ret].
  apply converter_same. unfold conv_of.
  destruct (is_rgb (i_pf src)) eqn:Rs, (is_rgb (i_pf dst)) eqn:Rd; try exact I.
  destruct B as [B|[B|[B B']]]; try congruence.
  destruct (supported_rgb _ _ S Rs Rd) as [[-> _]|[[-> _]|[_ E]]]; auto. congruence.
Qed.

Lemma rel_run {A} (c : M A) m : rel T T' same_shape eq c c -> same_outcome (c T m) (c T' m).
Proof.
  intros H. destruct (H m m (conj eq_refl eq_refl)) as [_ H']. clear H. rename H' into H. unfold same_outcome.
  destruct (c T m) as [o m1|f], (c T' m) as [o' m2|g]; try contradiction; auto.
Qed.
Lemma any_same_outcome w h src dst sb db : planes_u32 src -> planes_u32 dst ->
  same_outcome (convert (converters X86) T w h src dst sb db) (convert (converters X86) T' w h src dst sb db).
Proof.
  intros Us Ud.
  destruct (is_rgb (i_pf src) && is_rgb (i_pf dst)) eqn:R.
  2:{ rewrite byte_wise_same by (try assumption; unfold byte_wise; destruct (is_rgb (i_pf src)); auto).
      destruct (convert (converters X86) T' w h src dst sb db); cbn; auto. }
  apply andb_true_iff in R. destruct R as [Rs Rd]. unfold convert.
  set (ss := option_map arr_of (i_strides src)). set (ds := option_map arr_of (i_strides dst)).
  set (a := arr_of (rust_slices Src sb)). set (b := arr_of (rust_slices Dst db)). set (m := Mem sb db).
  destruct (convert_image_cases (converters X86) w h src ss a dst ds b T m Us Ud) as [[N ->]|[(V1 & V2 & N & ->)|(V1 & V2 & S & ->)]];
  destruct (convert_image_cases (converters X86) w h src ss a dst ds b T' m Us Ud) as [[N' ->]|[(V1' & V2' & N' & ->)|(V1' & V2' & S' & ->)]];
    try (cbn; auto; fail); try tauto; try congruence.
  apply rel_run. unfold call_converter. apply rel_bind_eq; [|intros; apply rel_ret].
  apply converter_like. unfold conv_of. rewrite Rs, Rd. exact I.
Qed.

Lemma any_same_sizes w h f s out m : get_buffers_size w h f s out T m = get_buffers_size w h f s out T' m.
Proof. apply same_run, wrap_size, HA. Qed.
End Calls.
