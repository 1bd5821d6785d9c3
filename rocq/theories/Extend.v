(** A run compared with a run on longer buffers, source and destination: it stops at an access
    out of bounds, or it does exactly the same and leaves the additional bytes alone. *)
From Coq Require Import ZArith List Bool Lia ZifyBool ZifyNat.
Import ListNotations.
From Verif Require Import Base Fmt Common Scalar Wrappers Simd Vector CpuInfo Lib Sets.
From Verif Require Sse2 Avx2 Neon Pad SetProofs.
Open Scope Z_scope.
Ltac Zify.zify_post_hook ::= Z.div_mod_to_equations.

Section Sim.
Variable T : target.
Variables S1 S2 PD : list (list Z).
Hypothesis HS : forall n, exists pad, nth n S2 [] = nth n S1 [] ++ pad.

Definition grown (m1 m2 : mem) : Prop :=
  srcs m1 = S1 /\ srcs m2 = S2 /\ forall n, nth n (dsts m2) [] = nth n (dsts m1) [] ++ nth n PD [].

(** [c1] runs on the short buffers, [c2] on the long ones; [G]: results of [c1] after
    which nothing is said. *)
Definition sim {A} (G : A -> Prop) (c1 c2 : M A) : Prop := forall m1 m2, grown m1 m2 ->
  match c1 T m1 with
  | Ok v m1' => G v \/ exists m2', c2 T m2 = Ok v m2' /\ grown m1' m2'
  | Fault OOB_read | Fault OOB_write => True
  | Fault f => c2 T m2 = Fault f
  end.
Definition same {A} := @sim A (fun _ => False).

Lemma sim_bind {A B} (G : B -> Prop) (c1 c2 : M A) (k1 k2 : A -> M B) :
  same c1 c2 -> (forall v m m', c1 T m = Ok v m' -> sim G (k1 v) (k2 v)) -> sim G (bind c1 k1) (bind c2 k2).
Proof.
  intros Hc Hk m1 m2 Hm. specialize (Hc m1 m2 Hm). (unfold bind; cbn [run]).
  destruct (c1 T m1) as [v m1'|f] eqn:E.
  - destruct Hc as [[]|(m2' & -> & Hm')]. eapply Hk; eauto.
  - destruct f; auto; rewrite Hc; reflexivity.
Qed.
Lemma same_bind {A B} (G : B -> Prop) (c1 c2 : M A) (k1 k2 : A -> M B) :
  same c1 c2 -> (forall v, sim G (k1 v) (k2 v)) -> sim G (bind c1 k1) (bind c2 k2).
Proof. intros Hc Hk. apply sim_bind; auto. Qed.

Lemma same_ret {A} (a : A) G : sim G (ret a) (ret a).
Proof. intros m1 m2 Hm. cbn. right. exists m2. auto. Qed.
Lemma same_raise {A} f (G : A -> Prop) : sim G (raise f) (raise f).
Proof. intros m1 m2 Hm. cbn. destruct f; auto. Qed.
Lemma same_if {A} (b : bool) (G : A -> Prop) c1 c2 d1 d2 :
  sim G c1 c2 -> sim G d1 d2 -> sim G (if b then c1 else d1) (if b then c2 else d2).
Proof. destruct b; auto. Qed.

Lemma same_ures r : same (ures r) (ures r).
Proof.
  intros m1 m2 Hm. (unfold ures; cbn [run]). destruct ((0 <=? r) && (r <? usz T)); [right; eauto|].
  destruct (checked T); [reflexivity|right; eauto].
Qed.
Lemma same_in_order l : same (in_order l) (in_order l).
Proof. intros m1 m2 Hm. (unfold in_order; cbn [run]). right. eexists. split; [reflexivity|exact Hm]. Qed.
Lemma same_ires r : same (ires r) (ires r).
Proof.
  intros m1 m2 Hm. (unfold ires; cbn [run]). destruct ((- 2 ^ 31 <=? r) && (r <? 2 ^ 31)); [right; eauto|].
  destruct (checked T); [reflexivity|right; eauto].
Qed.
Lemma same_aidx {A} (a : arr A) i : same (aidx a i) (aidx a i).
Proof.
  unfold aidx. apply same_if; [|apply same_raise].
  destruct (nth_error (adata a) (Z.to_nat i)); [apply same_ret|apply same_raise].
Qed.

(** Views of the same buffer, the second one longer. *)
Definition longer (s1 s2 : slice) : Prop :=
  s_plane s1 = s_plane s2 /\ s_off s1 = s_off s2 /\ s_len s1 <= s_len s2.

Lemma grown_plane m1 m2 p : grown m1 m2 -> exists pad, plane_bytes m2 p = plane_bytes m1 p ++ pad.
Proof.
  intros (E1 & E2 & E3). destruct p as [n|n]; cbn [plane_bytes].
  - rewrite E1, E2. apply HS.
  - exists (nth n PD []). apply E3.
Qed.
Lemma same_ld s1 s2 i : longer s1 s2 -> same (ld s1 i) (ld s2 i).
Proof.
  intros (Ep & Eo & El) m1 m2 Hm. (unfold ld; cbn [run]). cbv zeta. rewrite <- Ep, <- Eo.
  destruct (grown_plane m1 m2 (s_plane s1) Hm) as (pad & ->).
  set (b := plane_bytes m1 (s_plane s1)). set (a := s_off s1 + i).
  assert (Hl : zlen (b ++ pad) = zlen b + zlen pad) by (unfold zlen; rewrite app_length; lia).
  assert (Hz : 0 <= zlen pad) by (unfold zlen; lia).
  destruct ((0 <=? i) && (i <? s_len s1) && (0 <=? a) && (a <? zlen b)) eqn:E; [|exact I].
  right. exists m2. replace (_ && _ && _ && _) with true by lia.
  rewrite app_nth1 by (unfold zlen in E; lia). split; [reflexivity|exact Hm].
Qed.
Lemma same_ldn s1 s2 n : longer s1 s2 -> forall i, same (ldn s1 i n) (ldn s2 i n).
Proof.
  intros HL. induction n as [|n IH]; intros i; cbn [ldn]; [apply same_ret|].
  apply same_bind; [apply same_ld; auto|intros x]. apply same_bind; [apply IH|intros xs; apply same_ret].
Qed.

Lemma upd_app {A} (l : list A) : forall i v pad, (i < length l)%nat -> upd (l ++ pad) i v = upd l i v ++ pad.
Proof.
  induction l as [|x l IH]; intros i v pad H; cbn [length] in H; [lia|].
  destruct i as [|i]; cbn [upd app]; [reflexivity|]. f_equal. apply IH. lia.
Qed.
Lemma nth_upd_list (l : list (list Z)) : forall n k b, (n < length l)%nat ->
  nth k (upd l n b) [] = if Nat.eqb k n then b else nth k l [].
Proof.
  induction l as [|x l IH]; intros n k b H; cbn [length] in H; [lia|].
  destruct n as [|n], k as [|k]; cbn [upd nth]; try reflexivity. rewrite IH by lia. reflexivity.
Qed.
Lemma same_st s1 s2 i v : longer s1 s2 -> same (st s1 i v) (st s2 i v).
Proof.
  intros (Ep & Eo & El) m1 m2 (E1 & E2 & E3). (unfold st; cbn [run]). rewrite <- Ep, <- Eo.
  destruct (s_plane s1) as [n|n]; [exact I|]. cbv zeta. rewrite (E3 n).
  set (b := nth n (dsts m1) []). set (pad := nth n PD []). set (a := s_off s1 + i).
  assert (Hl : zlen (b ++ pad) = zlen b + zlen pad) by (unfold zlen; rewrite app_length; lia).
  assert (Hz : 0 <= zlen pad) by (unfold zlen; lia).
  destruct ((0 <=? i) && (i <? s_len s1) && (0 <=? a) && (a <? zlen b)) eqn:E; [|exact I].
  right. replace (_ && _ && _ && _) with true by lia. eexists. split; [reflexivity|].
  assert (N1 : (n < length (dsts m1))%nat).
  { destruct (Nat.lt_ge_cases n (length (dsts m1))) as [|G]; [auto|].
    exfalso. assert (b = []) by (apply nth_overflow; auto). rewrite H in E. cbn in E. lia. }
  assert (N2 : (n < length (dsts m2))%nat).
  { destruct (Nat.lt_ge_cases n (length (dsts m2))) as [|G]; [auto|].
    exfalso. assert (nth n (dsts m2) [] = []) by (apply nth_overflow; auto).
    rewrite (E3 n) in H. fold b pad in H. rewrite H in Hl. unfold zlen in *. cbn in Hl. lia. }
  split; [exact E1|]. split; [exact E2|]. intros k. cbn [dsts].
  rewrite !nth_upd_list by auto. destruct (Nat.eqb_spec k n) as [->|]; [|apply E3].
  apply upd_app. unfold zlen in E. lia.
Qed.
Lemma same_stn s1 s2 l : longer s1 s2 -> forall i, same (stn s1 i l) (stn s2 i l).
Proof.
  intros HL. induction l as [|b l IH]; intros i; cbn [stn]; [apply same_ret|].
  apply same_bind; [apply same_st; auto|intros _; apply IH].
Qed.

Lemma same_for_from n : forall i f1 f2, (forall i, same (f1 i) (f2 i)) -> same (for_from n i f1) (for_from n i f2).
Proof.
  induction n as [|n IH]; intros i f1 f2 H; cbn [for_from]; [apply same_ret|].
  apply same_bind; [apply H|intros _; apply IH; auto].
Qed.
Lemma same_for n f1 f2 : (forall i, same (f1 i) (f2 i)) -> same (for_ n f1) (for_ n f2).
Proof. apply same_for_from. Qed.
Lemma same_loop {S} n : forall (s : S) f1 f2, (forall s, same (f1 s) (f2 s)) -> same (loop n s f1) (loop n s f2).
Proof.
  induction n as [|n IH]; intros s f1 f2 H; cbn [loop]; [apply same_ret|].
  apply same_bind; [apply H|intros s'; apply IH; auto].
Qed.

Lemma bind_slice_from {A} s1 s2 i (k1 k2 : slice -> M A) G : longer s1 s2 -> i <= s_len s1 ->
  (forall t1 t2, longer t1 t2 -> sim G (k1 t1) (k2 t2)) ->
  sim G (bind (slice_from s1 i) k1) (bind (slice_from s2 i) k2).
Proof.
  intros (Ep & Eo & El) Hi Hk. unfold slice_from.
  replace (i <=? s_len s1) with true by lia. replace (i <=? s_len s2) with true by lia.
  destruct (0 <=? i); cbn [andb]; intros m1 m2 Hm; [|reflexivity].
  (unfold bind, ret; cbn [run]). apply Hk; auto.
  unfold longer; cbn [s_plane s_off s_len]. repeat split; [auto|lia|lia].
Qed.

(** ** The kernels *)
Ltac head t := match t with ?f _ => head f | _ => t end.
Ltac same_step :=
  match goal with
  | |- sim (fun _ => False) ?a ?b => change (same a b)
  | |- sim _ (bind _ _) (bind _ _) => apply same_bind; [|intros ?]
  | |- same (bind _ _) (bind _ _) => apply same_bind; [|intros ?]
  | |- same (ret _) (ret _) => apply same_ret
  | |- same (raise _) (raise _) => apply same_raise
  | |- same (if _ then _ else _) (if _ then _ else _) => apply same_if
  | |- same (for_ _ _) (for_ _ _) => apply same_for; intros ?
  | |- same (for_from _ _ _) (for_from _ _ _) => apply same_for_from; intros ?
  | |- same (loop _ _ _) (loop _ _ _) => apply same_loop; intros ?
  | |- same (stn _ _ _) (stn _ _ _) => apply same_stn; assumption
  | |- same (st _ _ _) (st _ _ _) => apply same_st; assumption
  | |- same (ldn _ _ _) (ldn _ _ _) => apply same_ldn; assumption
  | |- same (ld _ _) (ld _ _) => apply same_ld; assumption
  | |- same (ires _) (ires _) => apply same_ires
  | |- same (in_order _) (in_order _) => apply same_in_order
  | |- same (ures _) (ures _) => apply same_ures
  | |- sim _ (let '(_, _) := ?x in _) (let '(_, _) := ?x in _) => destruct x
  | |- same (let '(_, _) := ?x in _) (let '(_, _) := ?x in _) => destruct x
  | |- same (match ?x with pair _ _ => _ end) _ => destruct x
  | |- same ?c _ => let f := head c in unfold f; cbv zeta
  end.
Ltac same := repeat same_step.

Definition ext_1_2 (k : kernel_1_2) : Prop := forall w h ss s1 s2 ds a1 a2 b1 b2,
  longer s1 s2 -> longer a1 a2 -> longer b1 b2 ->
  same (k w h ss s1 ds (a1, b1)) (k w h ss s2 ds (a2, b2)).
Definition ext_1_3 (k : kernel_1_3) : Prop := forall w h ss s1 s2 ds a1 a2 b1 b2 c1 c2,
  longer s1 s2 -> longer a1 a2 -> longer b1 b2 -> longer c1 c2 ->
  same (k w h ss s1 ds (a1, b1, c1)) (k w h ss s2 ds (a2, b2, c2)).
Definition ext_2_1 (k : kernel_2_1) : Prop := forall w h ss ds d1 d2 a1 a2 b1 b2,
  longer d1 d2 -> longer a1 a2 -> longer b1 b2 ->
  same (k w h ss (a1, b1) ds d1) (k w h ss (a2, b2) ds d2).
Definition ext_3_1 (k : kernel_3_1) : Prop := forall w h ss ds d1 d2 a1 a2 b1 b2 c1 c2,
  longer d1 d2 -> longer a1 a2 -> longer b1 b2 -> longer c1 c2 ->
  same (k w h ss (a1, b1, c1) ds d1) (k w h ss (a2, b2, c2) ds d2).
Definition ext_1_1 (k : kernel_1_1) : Prop := forall w h ss ds s1 s2 d1 d2,
  longer s1 s2 -> longer d1 d2 ->
  same (k w h ss s1 ds d1) (k w h ss s2 ds d2).

Ltac kernel k := unfold k; intros; unfold k;
  repeat match goal with p : (_ * _)%type |- _ => destruct p end; cbv zeta; same.

Lemma ext_nv12 smp d c : ext_1_2 (rgb_to_nv12 smp d c).
Proof. unfold ext_1_2. kernel rgb_to_nv12. Qed.
Lemma ext_i420 smp d c : ext_1_3 (rgb_to_i420 smp d c).
Proof. unfold ext_1_3. kernel rgb_to_i420. Qed.
Lemma ext_i444 smp d c : ext_1_3 (rgb_to_i444 smp d c).
Proof. unfold ext_1_3. kernel rgb_to_i444. Qed.
Lemma ext_nv12_bgra c r : ext_2_1 (nv12_to_bgra c r).
Proof. unfold ext_2_1. kernel nv12_to_bgra. Qed.
Lemma ext_nv12_rgb c : ext_2_1 (nv12_to_rgb c).
Proof. unfold ext_2_1. kernel nv12_to_rgb. Qed.
Lemma ext_i420_bgra c r : ext_3_1 (i420_to_bgra c r).
Proof. unfold ext_3_1. kernel i420_to_bgra. Qed.
Lemma ext_i444_bgra c r : ext_3_1 (i444_to_bgra c r).
Proof. unfold ext_3_1. kernel i444_to_bgra. Qed.
Lemma ext_rgb_bgra : ext_1_1 rgb_to_bgra.
Proof. unfold ext_1_1. kernel rgb_to_bgra. Qed.
Lemma ext_bgr_rgb : ext_1_1 bgr_to_rgb.
Proof. unfold ext_1_1. kernel bgr_to_rgb. Qed.
Lemma ext_bgra_rgb : ext_1_1 bgra_to_rgb.
Proof. unfold ext_1_1. kernel bgra_to_rgb. Qed.

Lemma ext_nv12_sse2 smp d c : ext_1_2 (Sse2.rgb_to_nv12_sse2 smp d c).
Proof. unfold ext_1_2. kernel Sse2.rgb_to_nv12_sse2. Qed.
Lemma ext_i420_sse2 smp d c : ext_1_3 (Sse2.rgb_to_i420_sse2 smp d c).
Proof. unfold ext_1_3. kernel Sse2.rgb_to_i420_sse2. Qed.
Lemma ext_i444_sse2 smp d c : ext_1_3 (Sse2.rgb_to_i444_sse2 smp d c).
Proof. unfold ext_1_3. kernel Sse2.rgb_to_i444_sse2. Qed.
Lemma ext_nv12_bgra_sse2 c r : ext_2_1 (Sse2.nv12_to_bgra_sse2 c r).
Proof. unfold ext_2_1. kernel Sse2.nv12_to_bgra_sse2. Qed.
Lemma ext_i420_bgra_sse2 c r : ext_3_1 (Sse2.i420_to_bgra_sse2 c r).
Proof. unfold ext_3_1. kernel Sse2.i420_to_bgra_sse2. Qed.
Lemma ext_i444_bgra_sse2 c r : ext_3_1 (Sse2.i444_to_bgra_sse2 c r).
Proof. unfold ext_3_1. kernel Sse2.i444_to_bgra_sse2. Qed.
Lemma ext_rgb_bgra_sse2 : ext_1_1 Sse2.rgb_to_bgra_sse2.
Proof. unfold ext_1_1. kernel Sse2.rgb_to_bgra_sse2. Qed.

Lemma ext_nv12_avx2 smp d c : ext_1_2 (Avx2.rgb_to_nv12_avx2 smp d c).
Proof. unfold ext_1_2. kernel Avx2.rgb_to_nv12_avx2. Qed.
Lemma ext_i420_avx2 smp d c : ext_1_3 (Avx2.rgb_to_i420_avx2 smp d c).
Proof. unfold ext_1_3. kernel Avx2.rgb_to_i420_avx2. Qed.
Lemma ext_i444_avx2 smp d c : ext_1_3 (Avx2.rgb_to_i444_avx2 smp d c).
Proof. unfold ext_1_3. kernel Avx2.rgb_to_i444_avx2. Qed.
Lemma ext_nv12_bgra_avx2 c r : ext_2_1 (Avx2.nv12_to_bgra_avx2 c r).
Proof. unfold ext_2_1. kernel Avx2.nv12_to_bgra_avx2. Qed.
Lemma ext_nv12_rgb_avx2 c : ext_2_1 (Avx2.nv12_to_rgb_avx2 c).
Proof. unfold ext_2_1. kernel Avx2.nv12_to_rgb_avx2. Qed.
Lemma ext_i420_bgra_avx2 c r : ext_3_1 (Avx2.i420_to_bgra_avx2 c r).
Proof. unfold ext_3_1. kernel Avx2.i420_to_bgra_avx2. Qed.
Lemma ext_i444_bgra_avx2 c r : ext_3_1 (Avx2.i444_to_bgra_avx2 c r).
Proof. unfold ext_3_1. kernel Avx2.i444_to_bgra_avx2. Qed.
Lemma ext_rgb_bgra_avx2 : ext_1_1 Avx2.rgb_to_bgra_avx2.
Proof. unfold ext_1_1. kernel Avx2.rgb_to_bgra_avx2. Qed.
Lemma ext_bgr_rgb_avx2 : ext_1_1 Avx2.bgr_to_rgb_avx2.
Proof. unfold ext_1_1. kernel Avx2.bgr_to_rgb_avx2. Qed.
Lemma ext_bgra_rgb_avx2 : ext_1_1 Avx2.bgra_to_rgb_avx2.
Proof. unfold ext_1_1. kernel Avx2.bgra_to_rgb_avx2. Qed.

Lemma ext_nv12_neon smp d c : ext_1_2 (Neon.rgb_to_nv12_neon smp d c).
Proof. unfold ext_1_2. kernel Neon.rgb_to_nv12_neon. Qed.
Lemma ext_i420_neon smp d c : ext_1_3 (Neon.rgb_to_i420_neon smp d c).
Proof. unfold ext_1_3. kernel Neon.rgb_to_i420_neon. Qed.
Lemma ext_i444_neon smp d c : ext_1_3 (Neon.rgb_to_i444_neon smp d c).
Proof. unfold ext_1_3. kernel Neon.rgb_to_i444_neon. Qed.
Lemma ext_reorder_neon m out : ext_1_1 (Neon.reorder_neon m out).
Proof. unfold ext_1_1. kernel Neon.reorder_neon. Qed.

(** ** Vector part and scalar part *)
Hypothesis HT : 0 < usz T.

Lemma longer_len s1 s2 k : longer s1 s2 -> k <= s_len s1 -> k <= s_len s2.
Proof. intros (_ & _ & H). lia. Qed.

(** The slices of the short run are as long as the rows. *)
Definition ext_1_2' (depth : Z) (k : kernel_1_2) : Prop := forall w h ss s1 s2 ds a1 a2 b1 b2, 0 <= w ->
  longer s1 s2 -> longer a1 a2 -> longer b1 b2 ->
  depth * w <= s_len s1 -> w <= s_len a1 -> w <= s_len b1 ->
  same (k w h ss s1 ds (a1, b1)) (k w h ss s2 ds (a2, b2)).
Definition ext_1_3' (sub depth : Z) (k : kernel_1_3) : Prop := forall w h ss s1 s2 ds a1 a2 b1 b2 c1 c2, 0 <= w ->
  longer s1 s2 -> longer a1 a2 -> longer b1 b2 -> longer c1 c2 ->
  depth * w <= s_len s1 -> w <= s_len a1 -> w / sub <= s_len b1 -> w / sub <= s_len c1 ->
  same (k w h ss s1 ds (a1, b1, c1)) (k w h ss s2 ds (a2, b2, c2)).
Definition ext_2_1' (depth : Z) (k : kernel_2_1) : Prop := forall w h ss ds d1 d2 a1 a2 b1 b2, 0 <= w ->
  longer d1 d2 -> longer a1 a2 -> longer b1 b2 ->
  depth * w <= s_len d1 -> w <= s_len a1 -> w <= s_len b1 ->
  same (k w h ss (a1, b1) ds d1) (k w h ss (a2, b2) ds d2).
Definition ext_3_1' (sub depth : Z) (k : kernel_3_1) : Prop := forall w h ss ds d1 d2 a1 a2 b1 b2 c1 c2, 0 <= w ->
  longer d1 d2 -> longer a1 a2 -> longer b1 b2 -> longer c1 c2 ->
  depth * w <= s_len d1 -> w <= s_len a1 -> w / sub <= s_len b1 -> w / sub <= s_len c1 ->
  same (k w h ss (a1, b1, c1) ds d1) (k w h ss (a2, b2, c2) ds d2).
Definition ext_1_1' (sd dd : Z) (k : kernel_1_1) : Prop := forall w h ss ds s1 s2 d1 d2, 0 <= w ->
  longer s1 s2 -> longer d1 d2 -> sd * w <= s_len s1 -> dd * w <= s_len d1 ->
  same (k w h ss s1 ds d1) (k w h ss s2 ds d2).

Lemma only_1_2 depth k : ext_1_2 k -> ext_1_2' depth k.
Proof. unfold ext_1_2, ext_1_2'. auto. Qed.
Lemma only_1_3 sub depth k : ext_1_3 k -> ext_1_3' sub depth k.
Proof. unfold ext_1_3, ext_1_3'. auto. Qed.
Lemma only_2_1 depth k : ext_2_1 k -> ext_2_1' depth k.
Proof. unfold ext_2_1, ext_2_1'. auto. Qed.
Lemma only_3_1 sub depth k : ext_3_1 k -> ext_3_1' sub depth k.
Proof. unfold ext_3_1, ext_3_1'. auto. Qed.
Lemma only_1_1 sd dd k : ext_1_1 k -> ext_1_1' sd dd k.
Proof. unfold ext_1_1, ext_1_1'. auto. Qed.

Lemma bind_umul {A} a b (k1 k2 : Z -> M A) G : 0 <= a * b -> (forall v, v <= a * b -> sim G (k1 v) (k2 v)) ->
  sim G (bind (umul a b) k1) (bind (umul a b) k2).
Proof.
  intros H0 Hk. apply sim_bind; [apply same_ures|]. intros v m m' E. apply Hk.
  exact (Pad.umul_le T a b H0 HT m v m' E).
Qed.

Section Parts.
Variables (vp : Z -> Z) (depth sub : Z).
Hypothesis Hd : 0 < depth.
Hypothesis Hsub : 0 < sub.
Hypothesis Hvp : forall w, 0 <= w -> 0 <= vp w <= w.

Lemma ext_hyb_1_2 kv ks : ext_1_2 kv -> ext_1_2 ks -> ext_1_2' depth (hyb_1_2 vp depth kv ks).
Proof.
  intros Hv Hs w h ss s1 s2 ds a1 a2 b1 b2 Hw L La Lb Q Qa Qb. unfold hyb_1_2. cbv zeta. cbn [fst snd].
  pose proof (Hvp w Hw).
  apply same_bind; [apply same_if; [apply Hv; auto|apply same_ret]|intros _].
  apply same_if; [|apply same_ret]. apply bind_umul; [nia|intros sx Hsx].
  apply bind_slice_from; [auto|nia|intros t1 t2 Lt]. apply bind_slice_from; [auto|lia|intros y1 y2 Ly].
  apply bind_slice_from; [auto|lia|intros u1 u2 Lu]. apply Hs; auto.
Qed.
Lemma ext_hyb_1_3 kv ks : ext_1_3 kv -> ext_1_3 ks -> ext_1_3' sub depth (hyb_1_3 vp sub depth kv ks).
Proof.
  intros Hv Hs w h ss s1 s2 ds a1 a2 b1 b2 c1 c2 Hw L La Lb Lc Q Qa Qb Qc. unfold hyb_1_3. cbv zeta.
  pose proof (Hvp w Hw). pose proof (Z.div_le_mono (vp w) w sub Hsub ltac:(lia)).
  apply same_bind; [apply same_if; [apply Hv; auto|apply same_ret]|intros _].
  apply same_if; [|apply same_ret]. apply bind_umul; [nia|intros sx Hsx].
  apply bind_slice_from; [auto|nia|intros t1 t2 Lt]. apply bind_slice_from; [auto|lia|intros y1 y2 Ly].
  apply bind_slice_from; [auto|lia|intros u1 u2 Lu]. apply bind_slice_from; [auto|lia|intros v1 v2 Lv].
  apply Hs; auto.
Qed.
Lemma ext_hyb_2_1 kv ks : ext_2_1 kv -> ext_2_1 ks -> ext_2_1' depth (hyb_2_1 vp depth kv ks).
Proof.
  intros Hv Hs w h ss ds s1 s2 a1 a2 b1 b2 Hw L La Lb Q Qa Qb. unfold hyb_2_1. cbv zeta. cbn [fst snd].
  pose proof (Hvp w Hw).
  apply same_bind; [apply same_if; [apply Hv; auto|apply same_ret]|intros _].
  apply same_if; [|apply same_ret]. apply bind_umul; [nia|intros sx Hsx].
  apply bind_slice_from; [auto|lia|intros y1 y2 Ly].
  apply bind_slice_from; [auto|lia|intros u1 u2 Lu]. apply bind_slice_from; [auto|nia|intros t1 t2 Lt].
  apply Hs; auto.
Qed.
Lemma ext_hyb_3_1 kv ks : ext_3_1 kv -> ext_3_1 ks -> ext_3_1' sub depth (hyb_3_1 vp sub depth kv ks).
Proof.
  intros Hv Hs w h ss ds s1 s2 a1 a2 b1 b2 c1 c2 Hw L La Lb Lc Q Qa Qb Qc. unfold hyb_3_1. cbv zeta.
  pose proof (Hvp w Hw). pose proof (Z.div_le_mono (vp w) w sub Hsub ltac:(lia)).
  apply same_bind; [apply same_if; [apply Hv; auto|apply same_ret]|intros _].
  apply same_if; [|apply same_ret]. apply bind_umul; [nia|intros sx Hsx].
  apply bind_slice_from; [auto|lia|intros y1 y2 Ly].
  apply bind_slice_from; [auto|lia|intros u1 u2 Lu]. apply bind_slice_from; [auto|lia|intros v1 v2 Lv].
  apply bind_slice_from; [auto|nia|intros t1 t2 Lt].
  apply Hs; auto.
Qed.
Lemma ext_hyb_1_1 dd kv ks : 0 < dd -> ext_1_1 kv -> ext_1_1 ks -> ext_1_1' depth dd (hyb_1_1 vp depth dd kv ks).
Proof.
  intros Hdd Hv Hs w h ss ds s1 s2 d1 d2 Hw L Ld Q Qd. unfold hyb_1_1. cbv zeta.
  pose proof (Hvp w Hw).
  apply same_bind; [apply same_if; [apply Hv; auto|apply same_ret]|intros _].
  apply same_if; [|apply same_ret]. apply bind_umul; [nia|intros sx Hsx]. apply bind_umul; [nia|intros dx Hdx].
  apply bind_slice_from; [auto|nia|intros t1 t2 Lt]. apply bind_slice_from; [auto|nia|intros u1 u2 Lu].
  apply Hs; auto.
Qed.
End Parts.

(** ** The wrappers *)

(** Two arrays of slices, those of the second one longer. *)
Definition longer_all (a1 a2 : arr slice) : Prop :=
  alen a1 = alen a2 /\ forall i,
  match nth_error (adata a1) i, nth_error (adata a2) i with
  | Some s1, Some s2 => longer s1 s2 /\ 0 <= s_len s1 /\ s_len s2 < usz T
  | None, None => True
  | _, _ => False
  end.

Lemma bind_aidx {A} a1 a2 i (k1 k2 : slice -> M A) G : longer_all a1 a2 ->
  (forall s1 s2, longer s1 s2 -> 0 <= s_len s1 -> s_len s2 < usz T -> sim G (k1 s1) (k2 s2)) ->
  sim G (bind (aidx a1 i) k1) (bind (aidx a2 i) k2).
Proof.
  intros [E H] Hk. unfold aidx. rewrite <- E.
  destruct ((0 <=? i) && (i <? alen a1)); [|intros m1 m2 Hm; reflexivity].
  specialize (H (Z.to_nat i)).
  destruct (nth_error (adata a1) _) as [s1|], (nth_error (adata a2) _) as [s2|]; try contradiction.
  - intros m1 m2 Hm. (unfold bind, ret; cbn [run]). apply Hk; tauto.
  - intros m1 m2 Hm. exact I.
Qed.

(** A larger buffer passes the check when a smaller one does. *)
Definition bad (b : bool) : Prop := b = true.
Definition refused (b : bool) : Prop := b = false.

Lemma sim_oob s1 s2 stride h row : s1 <= s2 < usz T -> 0 <= stride ->
  sim bad (oob_call s1 stride h row) (oob_call s2 stride h row).
Proof.
  intros Hs Hst. unfold oob_call. apply same_bind; [apply same_ures|intros k].
  intros m1 m2 Hm. unfold out_of_bounds. cbn [run].
  destruct (Z.ltb_spec s1 stride); [left; reflexivity|].
  replace (s2 <? stride) with false by lia.
  destruct (k =? 0); [right; eexists; split; [reflexivity|exact Hm]|].
  destruct (usize_max T / k <? row); [left; reflexivity|].
  (unfold bind; cbn [run]). pose proof (same_ures (row * k) m1 m2 Hm) as Hu. fold (umul row k) in Hu.
  destruct (umul row k T m1) as [a m1'|f]; [|destruct f; auto; rewrite Hu; reflexivity].
  destruct Hu as [[]|(m2' & -> & Hm')].
  (unfold usub, ures; cbn [run]). replace ((0 <=? s1 - stride) && (s1 - stride <? usz T)) with true by lia.
  replace ((0 <=? s2 - stride) && (s2 - stride <? usz T)) with true by lia. cbn [ret run].
  (unfold ret; cbn [run]). destruct (s1 - stride <? a) eqn:E; [left; reflexivity|].
  right. exists m2'. replace (s2 - stride <? a) with false by lia. auto.
Qed.
Lemma sim_or a1 a2 b1 b2 : sim bad a1 a2 -> sim bad b1 b2 -> sim bad (orM a1 b1) (orM a2 b2).
Proof.
  intros Ha Hb m1 m2 Hm. (unfold orM, bind, ret; cbn [run]). specialize (Ha m1 m2 Hm).
  destruct (a1 T m1) as [[|] m1'|f].
  - left; reflexivity.
  - destruct Ha as [Ha|(m2' & -> & Hm')]; [discriminate Ha|]. apply Hb; auto.
  - destruct f; auto; rewrite Ha; reflexivity.
Qed.
Lemma sim_same {A} (G : A -> Prop) c1 c2 : same c1 c2 -> sim G c1 c2.
Proof.
  intros H m1 m2 Hm. specialize (H m1 m2 Hm). destruct (c1 T m1); [|auto].
  destruct H as [[]|H]; right; exact H.
Qed.

(** What a check that passes tells. *)
Definition passes (c : M bool) (P : Prop) : Prop := forall m m', c T m = Ok false m' -> P.
Lemma passes_oob len stride h row : passes (oob_call len stride h row) (stride <= len).
Proof.
  intros m m' E. (unfold oob_call, bind in E; cbn [run] in E). destruct (usub h 1 T m) as [k m1|f]; [|discriminate].
  unfold out_of_bounds in E. cbn [run] in E. destruct (Z.ltb_spec len stride); [discriminate|lia].
Qed.
Lemma passes_or a b P Q : passes a P -> passes b Q -> passes (orM a b) (P /\ Q).
Proof.
  intros Ha Hb m m' E. (unfold orM, bind in E; cbn [run] in E). destruct (a T m) as [[|] m1|f] eqn:E1; [discriminate| |discriminate].
  split; [exact (Ha _ _ E1)|exact (Hb _ _ E)].
Qed.
Lemma sim_checked c1 c2 P (k1 k2 : M bool) : sim bad c1 c2 -> passes c1 P -> (P -> sim refused k1 k2) ->
  sim refused (b <- c1 ;; if (b : bool) then ret false else k1) (b <- c2 ;; if (b : bool) then ret false else k2).
Proof.
  intros Hc HP Hk m1 m2 Hm. (unfold bind; cbn [run]). specialize (Hc m1 m2 Hm).
  destruct (c1 T m1) as [[|] m1'|f] eqn:E.
  - left; reflexivity.
  - destruct Hc as [Hc|(m2' & -> & Hm')]; [discriminate Hc|]. apply Hk; auto. exact (HP _ _ E).
  - destruct f; auto; rewrite Hc; reflexivity.
Qed.

(** The strides given are 0 or at least a row. *)
Definition wide (a : arr Z) (i row : Z) : Prop :=
  forall m v m', aidx a i T m = Ok v m' -> 0 <= row <= compute_stride v row.
Lemma bind_stride {A} a i row (k1 k2 : Z -> M A) G : wide a i row ->
  (forall v, 0 <= row <= compute_stride v row -> sim G (k1 v) (k2 v)) ->
  sim G (bind (aidx a i) k1) (bind (aidx a i) k2).
Proof. intros Ha Hk. apply sim_bind; [apply same_aidx|]. intros v m m' E. apply Hk. exact (Ha m v m' E). Qed.
Lemma bind_row {A} d w (k1 k2 : Z -> M A) G : 0 <= d * w < usz T -> sim G (k1 (d * w)) (k2 (d * w)) ->
  sim G (bind (umul d w) k1) (bind (umul d w) k2).
Proof.
  intros H0 Hk. apply sim_bind; [apply same_ures|]. intros v m m' E.
  (unfold umul, ures in E; cbn [run] in E). replace ((0 <=? d * w) && (d * w <? usz T)) with true in E by lia.
  injection E as <- _. exact Hk.
Qed.
Lemma bind_true (c1 c2 : M unit) : same c1 c2 -> sim refused (c1 ;; ret true) (c2 ;; ret true).
Proof. intros H. apply sim_same. apply same_bind; [exact H|intros; apply same_ret]. Qed.

Ltac enter H1 H2 := rewrite (proj1 H1), (proj1 H2); apply same_if; [apply same_ret|apply same_if; [apply same_ret|]]; cbv zeta.
Ltac checks := repeat apply sim_or; (apply sim_oob; [|lia]); unfold longer in *; lia.

Lemma sim_rgb_i4xx sub depth k w h l1 ss b1 b2 l2 ds d1 d2 : ext_1_3' sub depth k -> 0 <= w -> 0 < sub ->
  0 <= depth * w < usz T -> wide ss 0 (depth * w) -> wide ds 0 w -> wide ds 1 (w / sub) -> wide ds 2 (w / sub) ->
  longer_all b1 b2 -> longer_all d1 d2 ->
  sim refused (rgb_i4xx_w sub depth k w h l1 ss b1 l2 ds d1) (rgb_i4xx_w sub depth k w h l1 ss b2 l2 ds d2).
Proof.
  intros HK Hw Hsub Hrow W0 D0 D1 D2 LB LD. unfold rgb_i4xx_w. enter LB LD.
  apply bind_row; [exact Hrow|].
  apply bind_stride with (row := depth * w); [exact W0|intros s0 Q0].
  apply bind_stride with (row := w); [exact D0|intros e0 R0].
  apply bind_stride with (row := w / sub); [exact D1|intros e1 R1].
  apply bind_stride with (row := w / sub); [exact D2|intros e2 R2].
  apply bind_aidx; [exact LB|intros s1 s2 L ? ?]. apply bind_aidx; [exact LD|intros y1 y2 Ly ? ?].
  apply bind_aidx; [exact LD|intros u1 u2 Lu ? ?]. apply bind_aidx; [exact LD|intros v1 v2 Lv ? ?].
  eapply sim_checked; [checks|repeat apply passes_or; apply passes_oob|].
  intros (P1 & P2 & P3 & P4). apply bind_true. apply HK; auto; lia.
Qed.
Lemma sim_i4xx_rgb sub depth k w h l1 ss b1 b2 l2 ds d1 d2 : ext_3_1' sub depth k -> 0 <= w -> 0 < sub ->
  0 <= depth * w < usz T -> wide ds 0 (depth * w) -> wide ss 0 w -> wide ss 1 (w / sub) -> wide ss 2 (w / sub) ->
  longer_all b1 b2 -> longer_all d1 d2 ->
  sim refused (i4xx_rgb_w sub depth k w h l1 ss b1 l2 ds d1) (i4xx_rgb_w sub depth k w h l1 ss b2 l2 ds d2).
Proof.
  intros HK Hw Hsub Hrow W0 D0 D1 D2 LB LD. unfold i4xx_rgb_w. enter LB LD.
  apply bind_row; [exact Hrow|].
  apply bind_stride with (row := w); [exact D0|intros e0 R0].
  apply bind_stride with (row := w / sub); [exact D1|intros e1 R1].
  apply bind_stride with (row := w / sub); [exact D2|intros e2 R2].
  apply bind_stride with (row := depth * w); [exact W0|intros s0 Q0].
  apply bind_aidx; [exact LB|intros y1 y2 Ly ? ?].
  apply bind_aidx; [exact LB|intros u1 u2 Lu ? ?]. apply bind_aidx; [exact LB|intros v1 v2 Lv ? ?].
  apply bind_aidx; [exact LD|intros s1 s2 L ? ?].
  eapply sim_checked; [checks|repeat apply passes_or; apply passes_oob|].
  intros (P1 & P2 & P3 & P4). apply bind_true. apply HK; auto; lia.
Qed.
Lemma sim_rgb_rgb sd dd k w h l1 ss b1 b2 l2 ds d1 d2 : ext_1_1' sd dd k -> 0 <= w ->
  0 <= sd * w < usz T -> 0 <= dd * w < usz T -> wide ss 0 (sd * w) -> wide ds 0 (dd * w) ->
  longer_all b1 b2 -> longer_all d1 d2 ->
  sim refused (rgb_rgb_w sd dd k w h l1 ss b1 l2 ds d1) (rgb_rgb_w sd dd k w h l1 ss b2 l2 ds d2).
Proof.
  intros HK Hw Hs Hd W0 D0 LB LD. unfold rgb_rgb_w. enter LB LD.
  apply bind_stride with (row := sd * w); [exact W0|intros s0 Q0]. apply bind_row; [exact Hs|].
  apply bind_stride with (row := dd * w); [exact D0|intros e0 R0]. apply bind_row; [exact Hd|].
  apply bind_aidx; [exact LB|intros s1 s2 L ? ?]. apply bind_aidx; [exact LD|intros y1 y2 Ly ? ?].
  eapply sim_checked; [checks|repeat apply passes_or; apply passes_oob|].
  intros (P1 & P2). apply bind_true. apply HK; auto; lia.
Qed.

(** One-plane NV12 is cut after the luma rows, in both runs at the same place. *)
Definition cut (stride h : Z) (b : slice) : M (option (slice * slice)) :=
  n <- umul stride h ;; if s_len b <? n then ret None else n' <- umul stride h ;; p <- split_at b n' ;; ret (Some p).
Lemma bind_cut stride h b1 b2 (k1 k2 : option (slice * slice) -> M bool) : longer b1 b2 -> 0 <= s_len b1 -> s_len b2 < usz T ->
  k1 None = ret false ->
  (forall p1 p2 q1 q2, longer p1 p2 -> longer q1 q2 -> 0 <= s_len p1 -> 0 <= s_len q1 -> s_len p2 < usz T -> s_len q2 < usz T ->
     sim refused (k1 (Some (p1, q1))) (k2 (Some (p2, q2)))) ->
  sim refused (bind (cut stride h b1) k1) (bind (cut stride h b2) k2).
Proof.
  intros (Ep & Eo & El) H0 H2 K0 HK m1 m2 Hm. (unfold cut, bind; cbn [run]).
  pose proof (same_ures (stride * h) m1 m2 Hm) as U. change (ures (stride * h)) with (umul stride h) in U.
  destruct (umul stride h T m1) as [n n1|f] eqn:E1; [|destruct f; auto; rewrite U; reflexivity].
  destruct U as [[]|(n2 & E2 & Hn)]. rewrite E2.
  assert (Hn0 : 0 <= n).
  { (unfold umul, ures in E1; cbn [run] in E1). destruct ((0 <=? stride * h) && (stride * h <? usz T)) eqn:B; [injection E1; lia|].
    destruct (checked T); [discriminate|]. injection E1 as <- _. apply Z.mod_pos_bound. exact HT. }
  assert (M1 : umul stride h T n1 = Ok n n1).
  { revert E1. (unfold umul, ures; cbn [run]). destruct (_ && _); [congruence|]. destruct (checked T); congruence. }
  assert (M2 : umul stride h T n2 = Ok n n2).
  { revert E2. (unfold umul, ures; cbn [run]). destruct (_ && _); [congruence|]. destruct (checked T); congruence. }
  destruct (Z.ltb_spec (s_len b1) n).
  { (unfold ret at 1; cbn [run]). rewrite K0. left. reflexivity. }
  replace (s_len b2 <? n) with false by lia. cbn [run]. rewrite M1, M2. unfold split_at.
  replace ((0 <=? n) && (n <=? s_len b1)) with true by lia. replace ((0 <=? n) && (n <=? s_len b2)) with true by lia.
  (unfold ret; cbn [run]). apply HK; auto; unfold longer; cbn [s_plane s_off s_len]; repeat split; auto; lia.
Qed.

Lemma sim_assoc {A B C} (G : C -> Prop) (a1 a2 : M A) (f1 f2 : A -> M B) (k1 k2 : B -> M C) :
  sim G (bind a1 (fun x => bind (f1 x) k1)) (bind a2 (fun x => bind (f2 x) k2)) ->
  sim G (bind (bind a1 f1) k1) (bind (bind a2 f2) k2).
Proof.
  intros H m1 m2 Hm. specialize (H m1 m2 Hm). (unfold bind in *; cbn [run] in *).
  destruct (a1 T m1) as [x n1|f]; [|destruct (a2 T m2); exact H]. destruct (a2 T m2); exact H.
Qed.
Lemma sim_ret {A B} (a1 a2 : A) (k1 k2 : A -> M B) G : sim G (k1 a1) (k2 a2) ->
  sim G (bind (ret a1) k1) (bind (ret a2) k2).
Proof. intros H. exact H. Qed.

Lemma sim_rgb_nv12 depth k w h l1 ss b1 b2 l2 ds d1 d2 : ext_1_2' depth k -> 0 <= w ->
  0 <= depth * w < usz T -> wide ss 0 (depth * w) -> wide ds 0 w -> wide ds l2 w ->
  longer_all b1 b2 -> longer_all d1 d2 ->
  sim refused (rgb_nv12_w depth k w h l1 ss b1 l2 ds d1) (rgb_nv12_w depth k w h l1 ss b2 l2 ds d2).
Proof.
  intros HK Hw Hrow W0 D0 D1 LB LD. unfold rgb_nv12_w. enter LB LD.
  apply bind_row; [exact Hrow|].
  apply bind_stride with (row := depth * w); [exact W0|intros s0 Q0].
  apply bind_stride with (row := w); [exact D0|intros e0 R0].
  apply bind_stride with (row := w); [exact D1|intros e1 R1].
  apply bind_aidx; [exact LB|intros s1 s2 L ? ?].
  assert (KK : forall y1 y2 u1 u2, longer y1 y2 -> longer u1 u2 -> 0 <= s_len y1 -> 0 <= s_len u1 -> s_len y2 < usz T -> s_len u2 < usz T ->
    sim refused
      (b <- orM (oob_call (s_len s1) (compute_stride s0 (depth * w)) h (depth * w))
             (orM (oob_call (s_len y1) (compute_stride e0 w) h w) (oob_call (s_len u1) (compute_stride e1 w) (h / 2) w)) ;;
       if b : bool then ret false
       else k w h (compute_stride s0 (depth * w)) s1 (compute_stride e0 w, compute_stride e1 w) (y1, u1) ;; ret true)
      (b <- orM (oob_call (s_len s2) (compute_stride s0 (depth * w)) h (depth * w))
             (orM (oob_call (s_len y2) (compute_stride e0 w) h w) (oob_call (s_len u2) (compute_stride e1 w) (h / 2) w)) ;;
       if b : bool then ret false
       else k w h (compute_stride s0 (depth * w)) s2 (compute_stride e0 w, compute_stride e1 w) (y2, u2) ;; ret true)).
  { intros y1 y2 u1 u2 Ly Lu ? ? ? ?.
    eapply sim_checked; [checks|repeat apply passes_or; apply passes_oob|].
    intros (P1 & P2 & P3). apply bind_true. apply HK; auto; lia. }
  destruct (l2 =? 0).
  - apply sim_assoc. apply bind_aidx; [exact LD|intros p1 p2 Lp ? ?].
    apply (bind_cut (compute_stride e0 w) h p1 p2); auto.
  - apply sim_assoc. apply bind_aidx; [exact LD|intros p1 p2 Lp ? ?].
    apply sim_assoc. apply bind_aidx; [exact LD|intros q1 q2 Lq ? ?]. apply sim_ret. apply KK; auto.
Qed.
Lemma sim_nv12_rgb depth k w h l1 ss b1 b2 l2 ds d1 d2 : ext_2_1' depth k -> 0 <= w ->
  0 <= depth * w < usz T -> wide ds 0 (depth * w) -> wide ss 0 w -> wide ss l1 w ->
  longer_all b1 b2 -> longer_all d1 d2 ->
  sim refused (nv12_rgb_w depth k w h l1 ss b1 l2 ds d1) (nv12_rgb_w depth k w h l1 ss b2 l2 ds d2).
Proof.
  intros HK Hw Hrow W0 D0 D1 LB LD. unfold nv12_rgb_w. enter LB LD.
  apply bind_row; [exact Hrow|].
  apply bind_stride with (row := w); [exact D0|intros e0 R0].
  apply bind_stride with (row := w); [exact D1|intros e1 R1].
  apply bind_stride with (row := depth * w); [exact W0|intros s0 Q0].
  apply bind_aidx; [exact LB|intros p1 p2 Lp ? ?]. apply bind_aidx; [exact LB|intros q1 q2 Lq ? ?].
  assert (KK : forall y1 y2 u1 u2, longer y1 y2 -> longer u1 u2 -> 0 <= s_len y1 -> 0 <= s_len u1 -> s_len y2 < usz T -> s_len u2 < usz T ->
    sim refused
      (db <- aidx d1 0 ;;
       b <- orM (oob_call (s_len y1) (compute_stride e0 w) h w)
             (orM (oob_call (s_len u1) (compute_stride e1 w) (h / 2) w)
                  (oob_call (s_len db) (compute_stride s0 (depth * w)) h (depth * w))) ;;
       if b : bool then ret false
       else k w h (compute_stride e0 w, compute_stride e1 w) (y1, u1) (compute_stride s0 (depth * w)) db ;; ret true)
      (db <- aidx d2 0 ;;
       b <- orM (oob_call (s_len y2) (compute_stride e0 w) h w)
             (orM (oob_call (s_len u2) (compute_stride e1 w) (h / 2) w)
                  (oob_call (s_len db) (compute_stride s0 (depth * w)) h (depth * w))) ;;
       if b : bool then ret false
       else k w h (compute_stride e0 w, compute_stride e1 w) (y2, u2) (compute_stride s0 (depth * w)) db ;; ret true)).
  { intros y1 y2 u1 u2 Ly Lu ? ? ? ?. apply bind_aidx; [exact LD|intros s1 s2 L ? ?].
    eapply sim_checked; [checks|repeat apply passes_or; apply passes_oob|].
    intros (P1 & P2 & P3). apply bind_true. apply HK; auto; lia. }
  destruct (l1 =? 0).
  - apply (bind_cut (compute_stride e0 w) h p1 p2); auto.
  - apply sim_ret. apply KK; auto.
Qed.

(** ** Every converter *)

(** The strides of [src] and [dst]: 0, or at least a row. *)
Definition fwd_wide (spf dpf : pixel_format) (w l2 : Z) (ss ds : arr Z) : Prop :=
  0 <= pf_depth spf * w < usz T /\ wide ss 0 (pf_depth spf * w) /\ wide ds 0 w /\
  match dpf with
  | I420 => wide ds 1 (w / 2) /\ wide ds 2 (w / 2)
  | I444 => wide ds 1 (w / 1) /\ wide ds 2 (w / 1)
  | _ => wide ds l2 w
  end.
Definition rgb_wide (spf dpf : pixel_format) (w : Z) (ss ds : arr Z) : Prop :=
  0 <= pf_depth spf * w < usz T /\ wide ss 0 (pf_depth spf * w) /\
  0 <= pf_depth dpf * w < usz T /\ wide ds 0 (pf_depth dpf * w).

Definition supported_conv (c : conv) : Prop :=
  match c with
  | Rgb_yuv s d _ => (s = Argb \/ s = Bgra \/ s = Bgr) /\ (d = I420 \/ d = I444 \/ d = Nv12)
  | Yuv_rgb s _ d => (s = I420 \/ s = I444) /\ (d = Bgra \/ d = Rgba) \/ s = Nv12 /\ (d = Bgra \/ d = Rgba \/ d = Rgb)
  | Rgb_rgb s d => s = Bgr /\ d = Rgb \/ s = Bgra /\ d = Rgb \/ s = Rgb /\ d = Bgra
  end.
Definition conv_wide (c : conv) (w l1 l2 : Z) (ss ds : arr Z) : Prop :=
  match c with
  | Rgb_yuv s d _ => fwd_wide s d w l2 ss ds
  | Yuv_rgb s _ d => fwd_wide d s w l1 ds ss
  | Rgb_rgb s d => rgb_wide s d w ss ds
  end.

Lemma vp_pot k : 0 <= k -> forall w, 0 <= w -> 0 <= lower_multiple_of_pot w (2 ^ k) <= w.
Proof. intros Hk w Hw. destruct (SetProofs.vp_pot k Hk w Hw) as (m & E & H). lia. Qed.
Lemma vp_fwd k depth : 0 <= k -> forall w, 0 <= w -> 0 <= fwd_vector_part (2 ^ k) depth w <= w.
Proof. intros Hk w Hw. destruct (SetProofs.vp_fwd k depth Hk w Hw) as (m & E & H). lia. Qed.

Ltac a_kernel :=
  lazymatch goal with
  | |- ext_1_2 (rgb_to_nv12 _ _ _) => apply ext_nv12
  | |- ext_1_3 (rgb_to_i420 _ _ _) => apply ext_i420
  | |- ext_1_3 (rgb_to_i444 _ _ _) => apply ext_i444
  | |- ext_2_1 (nv12_to_bgra _ _) => apply ext_nv12_bgra
  | |- ext_2_1 (nv12_to_rgb _) => apply ext_nv12_rgb
  | |- ext_3_1 (i420_to_bgra _ _) => apply ext_i420_bgra
  | |- ext_3_1 (i444_to_bgra _ _) => apply ext_i444_bgra
  | |- ext_1_1 rgb_to_bgra => apply ext_rgb_bgra
  | |- ext_1_1 bgr_to_rgb => apply ext_bgr_rgb
  | |- ext_1_1 bgra_to_rgb => apply ext_bgra_rgb
  | |- ext_1_2 (Sse2.rgb_to_nv12_sse2 _ _ _) => apply ext_nv12_sse2
  | |- ext_1_3 (Sse2.rgb_to_i420_sse2 _ _ _) => apply ext_i420_sse2
  | |- ext_1_3 (Sse2.rgb_to_i444_sse2 _ _ _) => apply ext_i444_sse2
  | |- ext_2_1 (Sse2.nv12_to_bgra_sse2 _ _) => apply ext_nv12_bgra_sse2
  | |- ext_3_1 (Sse2.i420_to_bgra_sse2 _ _) => apply ext_i420_bgra_sse2
  | |- ext_3_1 (Sse2.i444_to_bgra_sse2 _ _) => apply ext_i444_bgra_sse2
  | |- ext_1_1 Sse2.rgb_to_bgra_sse2 => apply ext_rgb_bgra_sse2
  | |- ext_1_2 (Avx2.rgb_to_nv12_avx2 _ _ _) => apply ext_nv12_avx2
  | |- ext_1_3 (Avx2.rgb_to_i420_avx2 _ _ _) => apply ext_i420_avx2
  | |- ext_1_3 (Avx2.rgb_to_i444_avx2 _ _ _) => apply ext_i444_avx2
  | |- ext_2_1 (Avx2.nv12_to_bgra_avx2 _ _) => apply ext_nv12_bgra_avx2
  | |- ext_2_1 (Avx2.nv12_to_rgb_avx2 _) => apply ext_nv12_rgb_avx2
  | |- ext_3_1 (Avx2.i420_to_bgra_avx2 _ _) => apply ext_i420_bgra_avx2
  | |- ext_3_1 (Avx2.i444_to_bgra_avx2 _ _) => apply ext_i444_bgra_avx2
  | |- ext_1_1 Avx2.rgb_to_bgra_avx2 => apply ext_rgb_bgra_avx2
  | |- ext_1_1 Avx2.bgr_to_rgb_avx2 => apply ext_bgr_rgb_avx2
  | |- ext_1_1 Avx2.bgra_to_rgb_avx2 => apply ext_bgra_rgb_avx2
  | |- ext_1_2 (Neon.rgb_to_nv12_neon _ _ _) => apply ext_nv12_neon
  | |- ext_1_3 (Neon.rgb_to_i420_neon _ _ _) => apply ext_i420_neon
  | |- ext_1_3 (Neon.rgb_to_i444_neon _ _ _) => apply ext_i444_neon
  | |- ext_1_1 (Neon.reorder_neon _ _) => apply ext_reorder_neon
  end.
Ltac part :=
  cbv beta;
  lazymatch goal with
  | |- forall w, 0 <= w -> 0 <= fwd_vector_part _ _ w <= w => first [apply (vp_fwd 2); lia|apply (vp_fwd 3); lia|apply (vp_fwd 4); lia|apply (vp_fwd 5); lia]
  | |- _ => first [apply (vp_pot 3); lia|apply (vp_pot 4); lia|apply (vp_pot 5); lia|apply (vp_pot 2); lia]
  end.
Ltac side := lazymatch goal with |- _ < _ => reflexivity | |- forall w, _ => part | |- _ => a_kernel end.
Ltac kernels :=
  unfold Neon.bgr_to_rgb_neon, Neon.bgra_to_rgb_neon, Neon.rgb_to_bgra_neon;
  lazymatch goal with
  | |- ext_1_2' _ (hyb_1_2 _ _ _ _) => apply ext_hyb_1_2; side
  | |- ext_1_3' _ _ (hyb_1_3 _ _ _ _ _) => apply ext_hyb_1_3; side
  | |- ext_2_1' _ (hyb_2_1 _ _ _ _) => apply ext_hyb_2_1; side
  | |- ext_3_1' _ _ (hyb_3_1 _ _ _ _ _) => apply ext_hyb_3_1; side
  | |- ext_1_1' _ _ (hyb_1_1 _ _ _ _ _) => apply ext_hyb_1_1; side
  | |- ext_1_2' _ _ => apply only_1_2; a_kernel
  | |- ext_1_3' _ _ _ => apply only_1_3; a_kernel
  | |- ext_2_1' _ _ => apply only_2_1; a_kernel
  | |- ext_3_1' _ _ _ => apply only_3_1; a_kernel
  | |- ext_1_1' _ _ _ => apply only_1_1; a_kernel
  end.

Lemma converter_extends set c w h l1 ss b1 b2 l2 ds d1 d2 : supported_conv c -> 0 <= w -> conv_wide c w l1 l2 ss ds ->
  longer_all b1 b2 -> longer_all d1 d2 ->
  sim refused (converters set c w h l1 ss b1 l2 ds d1) (converters set c w h l1 ss b2 l2 ds d2).
Proof.
  intros Hc Hw HW LB LD. destruct c as [s d|s d cs|s cs d]; cbn [supported_conv conv_wide] in *.
  - destruct HW as (R1 & W1 & R2 & W2).
    destruct Hc as [[-> ->]|[[-> ->]|[-> ->]]]; cbn [pf_depth] in *; destruct set;
      cbn [converters x86_converter sse2_converter avx2_converter neon_converter];
      unfold x86_bgr_rgb, x86_bgra_rgb, x86_rgb_bgra, Sse2.sse2_bgr_rgb, Sse2.sse2_bgra_rgb, Sse2.sse2_rgb_bgra,
        Avx2.avx2_bgr_rgb, Avx2.avx2_bgra_rgb, Avx2.avx2_rgb_bgra, Neon.neon_bgr_rgb, Neon.neon_bgra_rgb, Neon.neon_rgb_bgra,
        x86_bgr_rgb, x86_bgra_rgb;
      (apply sim_rgb_rgb; [kernels|first [assumption|lia]..]).
  - destruct HW as (R1 & W1 & W2 & W3). destruct Hc as [Hs Hd].
    destruct Hs as [-> |[-> | ->]]; destruct Hd as [-> |[-> | ->]]; cbn [pf_depth sampler_of] in *; destruct set;
      cbn [converters x86_converter sse2_converter avx2_converter neon_converter pf_depth sampler_of];
      unfold x86_rgb_i420, x86_rgb_i444, x86_rgb_nv12, Sse2.sse2_rgb_i420, Sse2.sse2_rgb_i444, Sse2.sse2_rgb_nv12,
        Avx2.avx2_rgb_i420, Avx2.avx2_rgb_i444, Avx2.avx2_rgb_nv12, Neon.neon_rgb_i420, Neon.neon_rgb_i444, Neon.neon_rgb_nv12;
      lazymatch goal with
      | |- sim _ (rgb_nv12_w _ _ _ _ _ _ _ _ _ _) _ => (apply sim_rgb_nv12; [kernels|first [assumption|lia]..])
      | |- _ => destruct W3 as [W3 W4]; (apply sim_rgb_i4xx; [kernels|first [assumption|lia]..])
      end.
  - destruct HW as (R1 & W1 & W2 & W3).
    destruct Hc as [[[-> | ->] [-> | ->]]|[-> [-> |[-> | ->]]]]; cbn [pf_depth pf_reversed] in *; destruct set;
      cbn [converters x86_converter sse2_converter avx2_converter neon_converter pf_depth pf_reversed];
      unfold x86_i420_rgb, x86_i444_rgb, x86_nv12_rgb, Sse2.sse2_i420_rgb, Sse2.sse2_i444_rgb, Sse2.sse2_nv12_rgb,
        Avx2.avx2_i420_rgb, Avx2.avx2_i444_rgb, Avx2.avx2_nv12_rgb;
      try (change (3 =? 4) with false; change (4 =? 4) with true; change (3 =? 3) with true; change (4 =? 3) with false; cbv iota);
      lazymatch goal with
      | |- sim _ (nv12_rgb_w _ _ _ _ _ _ _ _ _ _) _ => (apply sim_nv12_rgb; [kernels|first [assumption|lia]..])
      | |- _ => destruct W3 as [W3 W4]; (apply sim_i4xx_rgb; [kernels|first [assumption|lia]..])
      end.
Qed.
End Sim.
