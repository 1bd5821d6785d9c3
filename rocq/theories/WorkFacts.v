(** Number of steps the functions take: an upper bound for each of them. *)
From Coq Require Import ZArith List Bool Lia ZifyBool ZifyNat.
Import ListNotations.
From Verif Require Import Base Fmt Dispatch Common Scalar Wrappers Simd Vector CpuInfo Lib Sets Spec ApiSpec Api LibFacts BigFacts DataFacts WorkSpec.
From Verif Require Sse2 Avx2 Neon.
Open Scope Z_scope.
Ltac Zify.zify_post_hook ::= Z.div_mod_to_equations.

(** With [n] steps allowed: whatever is read, and whichever way i32 arithmetic goes, no more are
    taken, and [Q] holds of the steps left and the result. *)
Fixpoint effort {A} (T : target) (c : M A) (n : Z) (Q : Z -> A -> Prop) {struct c} : Prop :=
  match c with
  | Ret a => Q n a
  | Raise _ => 0 <= n
  | Bind c k => effort T c n (fun n' b => effort T (k b) n' Q)
  | Ask k => effort T (k T) n Q
  | Usize r k => 1 <= n /\ effort T (k (r mod usz T)) (n - 1) Q
  | Int32 _ k => 1 <= n /\ forall v, effort T (k v) (n - 1) Q
  | Read _ _ k => 1 <= n /\ forall v, effort T (k v) (n - 1) Q
  | Write _ _ _ k => 1 <= n /\ effort T (k tt) (n - 1) Q
  end.

Lemma effort_mono {A} T (c : M A) : forall n d (P Q : Z -> A -> Prop), 0 <= d -> (forall n a, P n a -> Q (n + d) a) ->
  effort T c n P -> effort T c (n + d) Q.
Proof.
  induction c as [a|f|A B c IH k IHk|A k IH|A r k IH|A r k IH|A s i k IH|A s i v k IH]; intros n d P Q D H; cbn [effort].
  - apply H.
  - lia.
  - apply IH; [exact D|]. intros n' b. apply IHk; assumption.
  - apply IH; assumption.
  - intros [L K]. split; [lia|]. replace (n + d - 1) with (n - 1 + d) by lia. revert K. apply IH; assumption.
  - intros [L K]. split; [lia|]. intros v. replace (n + d - 1) with (n - 1 + d) by lia. generalize (K v). apply IH; assumption.
  - intros [L K]. split; [lia|]. intros v. replace (n + d - 1) with (n - 1 + d) by lia. generalize (K v). apply IH; assumption.
  - intros [L K]. split; [lia|]. replace (n + d - 1) with (n - 1 + d) by lia. revert K. apply IH; assumption.
Qed.
Lemma effort_sound {A} T (c : M A) : 0 < usz T -> forall n Q m, effort T c n Q ->
  match run c T m with Ok a _ => Q (n - steps c T m) a | Fault _ => steps c T m <= n end.
Proof.
  intros Hu. induction c as [a|f|A B c IH k IHk|A k IH|A r k IH|A r k IH|A s i k IH|A s i v k IH]; intros n Q m H; cbn [run steps effort] in *.
  - rewrite Z.sub_0_r. exact H.
  - exact H.
  - specialize (IH n _ m H). destruct (run c T m) as [b m1|f]; [|lia].
    specialize (IHk b _ Q m1 IH). destruct (run (k b) T m1) as [a m2|f]; [|lia].
    replace (n - (steps c T m + steps (k b) T m1)) with (n - steps c T m - steps (k b) T m1) by lia. exact IHk.
  - apply IH. exact H.
  - destruct H as [L H]. destruct ((0 <=? r) && (r <? usz T)) eqn:D.
    + rewrite Z.mod_small in H by lia. specialize (IH _ _ Q m H). destruct (run (k r) T m); [|lia]. rewrite Z.sub_add_distr. exact IH.
    + destruct (checked T); [lia|]. specialize (IH _ _ Q m H). destruct (run (k _) T m); [|lia]. rewrite Z.sub_add_distr. exact IH.
  - destruct H as [L H]. destruct (_ && _).
    + specialize (IH r _ Q m (H r)). destruct (run (k r) T m); [|lia]. rewrite Z.sub_add_distr. exact IH.
    + destruct (checked T); [lia|]. specialize (IH _ _ Q m (H (wrap_i32 r))). destruct (run (k _) T m); [|lia]. rewrite Z.sub_add_distr. exact IH.
  - destruct H as [L H]. cbv zeta. destruct (_ && _ && _ && _); [|lia].
    match goal with |- context [run (k ?v) T m] => specialize (IH v _ Q m (H v)); destruct (run (k v) T m) end; [|lia]. rewrite Z.sub_add_distr. exact IH.
  - destruct H as [L H]. destruct (s_plane s) as [p|p]; [lia|]. cbv zeta. destruct (_ && _ && _ && _); [|lia].
    match goal with |- context [run (k tt) T ?m1] => specialize (IH tt _ Q m1 H); destruct (run (k tt) T m1) end; [|lia]. rewrite Z.sub_add_distr. exact IH.
Qed.

Definition any {A} (a : A) : Prop := True.

Section Work.
Variable T : target.
Hypothesis Hu : 2 ^ 32 <= usz T.

(** At most [n] steps, and a result in [P]. *)
Definition takes {A} (c : M A) (n : Z) (P : A -> Prop) : Prop := effort T c n (fun r a => 0 <= r /\ P a).

Lemma takes_mono {A} (c : M A) n n' (P Q : A -> Prop) : takes c n P -> n <= n' -> (forall a, P a -> Q a) -> takes c n' Q.
Proof.
  intros H L I. unfold takes. replace n' with (n + (n' - n)) by lia. eapply effort_mono; [lia| |exact H]. cbv beta.
  intros k a [K Pa]. split; [lia|auto].
Qed.
Lemma takes_le {A} (c : M A) n n' P : takes c n P -> n <= n' -> takes c n' P.
Proof. intros H L. eapply takes_mono; eauto. Qed.
Lemma takes_then {A B} (c : M A) (k : A -> M B) n n' P Q : takes c n P -> (forall a, P a -> takes (k a) n' Q) -> 0 <= n' -> takes (bind c k) (n + n') Q.
Proof.
  intros H K N. unfold takes, bind. cbn [effort]. eapply effort_mono; [exact N| |exact H]. intros m a [L Pa].
  eapply takes_mono; [exact (K a Pa)|lia|auto].
Qed.
Lemma takes_bind {A B} (c : M A) (k : A -> M B) n n' Q : takes c n any -> (forall a, takes (k a) n' Q) -> 0 <= n' -> takes (bind c k) (n + n') Q.
Proof. intros H K N. eapply takes_then; [exact H|auto|exact N]. Qed.
(** [m] steps of the [n] are spent. *)
Lemma takes_spend {A B} m (c : M A) (k : A -> M B) n Q : takes c m any -> m <= n -> (forall a, takes (k a) (n - m) Q) -> takes (bind c k) n Q.
Proof. intros H L K. replace n with (m + (n - m)) by lia. apply takes_bind; [exact H|exact K|lia]. Qed.
Lemma takes_ret {A} (a : A) (P : A -> Prop) : P a -> takes (ret a) 0 P.
Proof. intros H. split; [lia|exact H]. Qed.
Lemma takes_retn {A} (a : A) n : 0 <= n -> takes (ret a) n any.
Proof. intros H. split; [lia|exact I]. Qed.
Lemma takes_raise {A} f (P : A -> Prop) : takes (raise f) 0 P.
Proof. unfold takes, raise. cbn [effort]. lia. Qed.
Lemma takes_raisen {A} f n (P : A -> Prop) : 0 <= n -> takes (raise f) n P.
Proof. intros H. exact H. Qed.
Lemma takes_ures r (P : Z -> Prop) : P (r mod usz T) -> takes (ures r) 1 P.
Proof. intros H. repeat split; [lia|lia|exact H]. Qed.
Lemma takes_ures_exact r : 0 <= r < 2 ^ 32 -> takes (ures r) 1 (eq r).
Proof. intros H. apply takes_ures. rewrite Z.mod_small; lia. Qed.
Lemma takes_ires r : takes (ires r) 1 any.
Proof. split; [lia|]. intros v. split; [lia|exact I]. Qed.
Lemma takes_ld s i : takes (ld s i) 1 any.
Proof. split; [lia|]. intros v. split; [lia|exact I]. Qed.
Lemma takes_st s i v : takes (st s i v) 1 any.
Proof. repeat split; lia. Qed.
Lemma takes_ldn s n : forall i, takes (ldn s i n) (Z.of_nat n) (fun l => length l = length (repeat 0 n)).
Proof.
  induction n as [|n IH]; intros i; cbn [ldn]; [apply takes_ret; reflexivity|].
  replace (Z.of_nat (S n)) with (1 + (Z.of_nat n + 0)) by lia. eapply takes_bind; [apply takes_ld|intros b|lia]. eapply takes_then; [apply IH|intros l L|lia].
  apply takes_ret. cbn [length repeat] in *. congruence.
Qed.
Lemma takes_stn s l : forall i, takes (stn s i l) (zlen l) any.
Proof.
  induction l as [|b l IH]; intros i; cbn [stn]; [apply takes_ret; exact I|].
  replace (zlen (b :: l)) with (1 + zlen l) by (unfold zlen; cbn [length]; lia).
  apply takes_bind; [apply takes_st|intros _; apply IH|unfold zlen; lia].
Qed.
Lemma takes_stn_as s i l (l' : list Z) n : length l = length l' -> zlen l' = n -> takes (stn s i l) n any.
Proof. intros E <-. unfold zlen. rewrite <- E. apply takes_stn. Qed.
Lemma takes_stn_firstn s i n (l : list Z) : takes (stn s i (firstn n l)) (Z.of_nat n) any.
Proof. eapply takes_le; [apply takes_stn|]. unfold zlen. rewrite firstn_length. lia. Qed.
Lemma takes_stn_skipn s i k n (l : list Z) : takes (stn s i (skipn k (firstn n l))) (Z.of_nat (n - k)) any.
Proof. eapply takes_le; [apply takes_stn|]. unfold zlen. rewrite skipn_length, firstn_length. lia. Qed.
Lemma takes_store d o r g b : length r = length (repeat 0 32) -> length g = length (repeat 0 32) -> length b = length (repeat 0 32) ->
  takes (Avx2.store_rgb_16x d o r g b) 64 any.
Proof.
  intros Lr Lg Lb. unfold Avx2.store_rgb_16x.
  destruct (el_avx2_packrgb r (repeat 0 32) g (repeat 0 32) b (repeat 0 32) Lr Lg Lb) as [L0 L1].
  change (length (fst (Avx2.pack_rgb_16x (repeat 0 32) (repeat 0 32) (repeat 0 32)))) with 32%nat in L0.
  change (length (snd (Avx2.pack_rgb_16x (repeat 0 32) (repeat 0 32) (repeat 0 32)))) with 32%nat in L1.
  destruct (Avx2.pack_rgb_16x r g b) as [a0 a1]. cbn [fst snd] in *.
  eapply takes_le; [eapply takes_bind; [apply takes_stn|intros _; apply takes_stn|unfold zlen; lia]|]. unfold zlen. lia.
Qed.
Lemma takes_in_order l : takes (in_order l) 0 (fun l' => length l' = length l).
Proof. unfold in_order. split; [lia|]. destruct (big T); rewrite ?rev_length; reflexivity. Qed.
Lemma takes_ld_word n s i : takes (ld_word n s i) (Z.of_nat n) any.
Proof.
  unfold ld_word. replace (Z.of_nat n) with (Z.of_nat n + (0 + 0)) by lia. eapply takes_then; [apply takes_ldn|intros l _|lia].
  eapply takes_then; [apply takes_in_order|intros l' _|lia]. apply takes_ret. exact I.
Qed.
Lemma takes_st_word n s i v : takes (st_word n s i v) (Z.of_nat n) any.
Proof.
  unfold st_word. change (Z.of_nat n) with (0 + Z.of_nat n). eapply takes_then; [apply takes_in_order|intros l E|lia].
  eapply takes_le; [apply takes_stn|]. unfold zlen. rewrite E.
  assert (L : forall n x, length (to_bytes n x) = n) by (clear; induction n; intros; cbn [to_bytes length]; auto).
  rewrite L. lia.
Qed.
Lemma takes_for_from n f k : 0 <= k -> (forall i, takes (f i) k any) -> forall i, takes (for_from n i f) (Z.of_nat n * k) any.
Proof.
  intros Hk H. induction n as [|n IH]; intros i; cbn [for_from]; [apply takes_retn; lia|].
  replace (Z.of_nat (S n) * k) with (k + Z.of_nat n * k) by lia. apply takes_bind; [apply H|intros _; apply IH|nia].
Qed.
Lemma takes_for n f k : 0 <= n -> 0 <= k -> (forall i, takes (f i) k any) -> takes (for_ n f) (n * k) any.
Proof. intros Hn Hk H. unfold for_. rewrite <- (Z2Nat.id n) at 2 by exact Hn. apply takes_for_from; assumption. Qed.
Lemma takes_loop {S} n (f : S -> M S) k (P : Z -> S -> Prop) : 0 <= k ->
  (forall i s, 0 <= i < Z.of_nat n -> P i s -> takes (f s) k (P (i + 1))) ->
  forall s, P 0 s -> takes (loop n s f) (Z.of_nat n * k) (P (Z.of_nat n)).
Proof.
  intros Hk. revert P. induction n as [|n IH]; intros P H s Hs; cbn [loop].
  - apply takes_ret. exact Hs.
  - replace (Z.of_nat (Datatypes.S n) * k) with (k + Z.of_nat n * k) by lia. eapply takes_then; [apply (H 0 s); [lia|exact Hs]| |nia].
    intros s' Hs'. eapply takes_mono; [apply (IH (fun i => P (i + 1)))|lia|].
    + intros i x Hi. apply H. lia.
    + exact Hs'.
    + intros x. replace (Z.of_nat n + 1) with (Z.of_nat (Datatypes.S n)) by lia. auto.
Qed.
Lemma takes_loop_any {S} n (f : S -> M S) k s : 0 <= k -> (forall s, takes (f s) k any) -> takes (loop n s f) (Z.of_nat n * k) any.
Proof. intros Hk H. apply (takes_loop n f k (fun _ => any)); auto. exact I. Qed.
Lemma takes_oob a b c d : takes (out_of_bounds a b c d) 5 any.
Proof. unfold out_of_bounds, takes. cbn [effort]. destruct (_ <? _); [cbn [effort]; repeat split; lia|]. destruct (_ =? _); [cbn [effort]; repeat split; lia|].
  destruct (_ <? _); cbn [effort]; repeat split; lia.
Qed.
Lemma takes_pure {A B} (a : A) (k : A -> M B) n P : takes (k a) n P -> takes (bind (ret a) k) n P.
Proof. intros H. exact H. Qed.
Lemma takes_assoc {A B C} (a : M A) (b : A -> M B) (k : B -> M C) n P :
  takes (bind a (fun x => bind (b x) k)) n P -> takes (bind (bind a b) k) n P.
Proof. intros H. exact H. Qed.

(** An expression of the same length, without variables. *)
Ltac wit e :=
  match goal with
  | H : length ?x = length ?c |- _ =>
      match e with context [x] =>
        let F := eval pattern x in e in
        match F with ?G _ => let e' := eval cbv beta in (G c) in wit e' end
      end
  | _ => e
  end.
Ltac same_length := first [lazymatch goal with H : length ?x = length ?y |- length ?x = length ?y => exact H end|solve [lens']|eqlen].
Ltac short H :=
  lazymatch type of H with length ?x = length ?c => let n := eval lazy in (length c) in
    let E := fresh in assert (E : length c = length (repeat 0 n)) by (lazy; reflexivity); rewrite E in H; clear E end.
Ltac two L :=
  let H := fresh in pose proof L as H;
  match goal with |- takes (match ?f with _ => _ end) _ _ => destruct f as [? ?] end;
  let A := fresh in let B := fresh in destruct H as [A B]; cbn [fst snd] in A, B; short A; short B.
Ltac three L :=
  let H := fresh in pose proof L as H;
  match goal with |- takes (match ?f with _ => _ end) _ _ => destruct f as [[? ?] ?] end;
  let A := fresh in let B := fresh in let C := fresh in destruct H as [[A B] C]; cbn [fst snd] in A, B, C; short A; short B; short C.
Ltac count_step :=
  cbv beta zeta iota;
  lazymatch goal with
  | |- 0 <= _ => first [lia|vm_compute; let H := fresh in intros H; discriminate H]
  | |- takes (bind (ldn _ _ _) _) _ _ => eapply takes_then; [apply takes_ldn|let L := fresh in intros ? L; cbv beta in L|]
  | |- takes (bind (bind _ _) _) _ _ => eapply takes_assoc
  | |- takes (bind (ret _) _) _ _ => apply takes_pure
  | |- takes (bind (Sse2.unpack_ui8_i16be_8x _ _) _) _ _ => unfold Sse2.unpack_ui8_i16be_8x
  | |- takes (bind (Sse2.unpack_ui8x2_i16be_8x _ _) _) _ _ => unfold Sse2.unpack_ui8x2_i16be_8x
  | |- takes (bind (Sse2.load_lo_8x _ _) _) _ _ => unfold Sse2.load_lo_8x
  | |- takes (bind (Avx2.unpack_ui8_i16be_16x _ _) _) _ _ => unfold Avx2.unpack_ui8_i16be_16x
  | |- takes (bind (Avx2.unpack_ui8x2_i16be_16x _ _) _) _ _ => unfold Avx2.unpack_ui8x2_i16be_16x
  | |- takes (bind (Avx2.load_lo_16x _ _) _) _ _ => unfold Avx2.load_lo_16x
  | |- takes (bind (Neon.rgb_to_y_and_avg_uv_8x _ _ _ _ _ _ _ _) _) _ _ => unfold Neon.rgb_to_y_and_avg_uv_8x
  | |- takes (match Neon.rgb_to_uv_8x _ _ _ _ with _ => _ end) _ _ => unfold Neon.rgb_to_uv_8x, Neon.uv_weights
  | |- takes (bind (match Neon.load_rgb_8x _ _ with _ => _ end) _) _ _ => unfold Neon.load_rgb_8x
  | |- takes (bind _ _) _ _ => eapply takes_bind; [|intros ?|]
  | |- takes (ret _) _ _ => apply takes_ret; exact I
  | |- takes (raise _) _ _ => apply takes_raise
  | |- takes (ures _) _ _ => apply takes_ures; exact I
  | |- takes (ires _) _ _ => apply takes_ires
  | |- takes (ld _ _) _ _ => apply takes_ld
  | |- takes (ld_u64 _ _) _ _ => apply takes_ld_word
  | |- takes (ld_u32 _ _) _ _ => apply takes_ld_word
  | |- takes (st_u64 _ _ _) _ _ => apply takes_st_word
  | |- takes (st_u32 _ _ _) _ _ => apply takes_st_word
  | |- takes (st _ _ _) _ _ => apply takes_st
  | |- takes (out_of_bounds _ _ _ _) _ _ => apply takes_oob
  | |- takes (Avx2.store_rgb_16x _ _ ?r ?g ?b) _ _ =>
      let r' := wit r in let g' := wit g in let b' := wit b in apply takes_store;
      [transitivity (length r'); [same_length|lazy; reflexivity]|transitivity (length g'); [same_length|lazy; reflexivity]|transitivity (length b'); [same_length|lazy; reflexivity]]
  | |- takes (stn _ _ (firstn _ _)) _ _ => apply takes_stn_firstn
  | |- takes (stn _ _ (skipn _ (firstn _ _))) _ _ => apply takes_stn_skipn
  | |- takes (stn _ _ ?e) _ _ =>
      let e' := wit e in let n := eval lazy in (zlen e') in apply (takes_stn_as _ _ e e' n); [same_length|reflexivity]
  | |- takes (match Sse2.unpack_ui8x3_i16x2_4x ?s ?l with _ => _ end) _ _ =>
      let l' := wit l in two (el_sse2_unpack3 s l l' ltac:(same_length))
  | |- takes (match Avx2.unpack_ui8x3_i16x2_8x ?s ?l with _ => _ end) _ _ =>
      let l' := wit l in two (el_avx2_unpack3 s l l' ltac:(same_length))
  | |- takes (match Sse2.i16_to_i16x2_8x ?l with _ => _ end) _ _ =>
      let l' := wit l in two (el_sse2_double l l' ltac:(same_length))
  | |- takes (match Avx2.i16_to_i16x2_16x ?l with _ => _ end) _ _ =>
      let l' := wit l in two (el_avx2_double l l' ltac:(same_length))
  | |- takes (match Sse2.pack_i16x3_8x ?v ?r ?g ?b with _ => _ end) _ _ =>
      let r' := wit r in let g' := wit g in let b' := wit b in
      two (el_sse2_pack3 v r r' g g' b b' ltac:(same_length) ltac:(same_length) ltac:(same_length))
  | |- takes (match Avx2.pack_i16x3_16x ?v ?r ?g ?b with _ => _ end) _ _ =>
      let r' := wit r in let g' := wit g in let b' := wit b in
      two (el_avx2_pack3 v r r' g g' b b' ltac:(same_length) ltac:(same_length) ltac:(same_length))
  | |- takes (match Sse2.chroma_8x ?c ?l ?r with _ => _ end) _ _ =>
      let l' := wit l in let r' := wit r in three (el_sse2_chroma c l l' r r' ltac:(same_length) ltac:(same_length))
  | |- takes (match Avx2.chroma_16x ?c ?l ?r with _ => _ end) _ _ =>
      let l' := wit l in let r' := wit r in three (el_avx2_chroma c l l' r r' ltac:(same_length) ltac:(same_length))
  | |- takes (match bgr_to_rgb_words ?a ?b ?c with _ => _ end) _ _ => destruct (bgr_to_rgb_words a b c) as [[? ?] ?]
  | |- takes (match ?f with _ => _ end) _ _ => first [is_var f; destruct f | let k := head f in unfold k]
  | |- takes ?c _ _ => let f := head c in unfold f
  end.
Ltac count := eapply takes_le; [solve [repeat count_step]|first [lia|cbn; lia|vm_compute; let H := fresh in intros H; discriminate H]].

(** ** The kernels *)
Lemma takes_for2 a b f k n : 0 <= a -> 0 <= b -> 0 <= k -> (forall y x, takes (f y x) k any) -> a * (b * k) <= n ->
  takes (for_ a (fun y => for_ b (fun x => f y x))) n any.
Proof.
  intros Ha Hb Hk H L. eapply takes_le; [|exact L]. apply takes_for; [exact Ha|lia|]. intros y. apply takes_for; auto.
Qed.

(** Forty steps a pixel, and [a] more. *)
Definition work_1_2 (P : Z -> Prop) (a : Z) (k : kernel_1_2) := forall w h ss s ds d, P w -> 0 < w < 2 ^ 32 -> 0 <= h -> takes (k w h ss s ds d) (a + h * (40 * w)) any.
Definition work_1_3 (P : Z -> Prop) (a : Z) (k : kernel_1_3) := forall w h ss s ds d, P w -> 0 < w < 2 ^ 32 -> 0 <= h -> takes (k w h ss s ds d) (a + h * (40 * w)) any.
Definition work_2_1 (P : Z -> Prop) (a : Z) (k : kernel_2_1) := forall w h ss s ds d, P w -> 0 < w < 2 ^ 32 -> 0 <= h -> takes (k w h ss s ds d) (a + h * (40 * w)) any.
Definition work_3_1 (P : Z -> Prop) (a : Z) (k : kernel_3_1) := forall w h ss s ds d, P w -> 0 < w < 2 ^ 32 -> 0 <= h -> takes (k w h ss s ds d) (a + h * (40 * w)) any.
Definition work_1_1 (P : Z -> Prop) (a : Z) (k : kernel_1_1) := forall w h ss s ds d, P w -> 0 < w < 2 ^ 32 -> 0 <= h -> takes (k w h ss s ds d) (a + h * (40 * w)) any.

Lemma takes_last {A B} (c : M A) (b : B) n : takes c n any -> takes (bind c (fun _ => ret b)) n any.
Proof. intros H. eapply takes_le; [eapply takes_bind; [exact H|intros ?; apply takes_ret; exact I|lia]|lia]. Qed.
Lemma same_rows a x y : 0 <= a -> x <= y -> a * x <= a * y.
Proof. intros. apply Z.mul_le_mono_nonneg_l; assumption. Qed.
Lemma half_rows h x y : 0 <= h -> 0 <= y -> x <= 2 * y -> h / 2 * x <= h * y.
Proof. intros H Y L. transitivity (h / 2 * (2 * y)); [apply same_rows; lia|]. replace (h / 2 * (2 * y)) with ((2 * (h / 2)) * y) by ring. apply Z.mul_le_mono_nonneg_r; lia. Qed.

Lemma rows_nonneg h w : 0 <= h -> 0 < w -> 0 <= h * (40 * w).
Proof. intros. nia. Qed.
(** The statements before the loops. *)
Ltac pixels := match goal with W : 0 < ?w < _, H : 0 <= ?h |- _ => is_var h; pose proof (rows_nonneg h w H ltac:(lia)) end.
Ltac spend := try pixels; repeat (eapply takes_spend; [solve [repeat count_step]|lia|intros ?]).
Ltac consts :=
  change Sse2.RGB_TO_YUV_WAVES with 4; change Sse2.YUV_TO_RGB_WAVES with 16; change Avx2.RGB_TO_YUV_WAVES with 8;
  change Avx2.YUV_TO_RGB_WAVES with 32; change Neon.RGB_TO_YUV_WAVES with 8; change (16 / 2) with 8; change (32 / 2) with 16.
Ltac grid n :=
  pixels; match goal with W : 0 < ?w < _, H : 0 <= ?h |- _ => is_var h; apply (takes_le _ (h * (40 * w))) end;
  [apply (takes_for2 _ _ _ n); [lia|consts; lia|lia|intros ? ?|
    consts;
    first [apply same_rows; lia|apply half_rows; lia|rewrite Z.div_1_r; apply same_rows; lia]]|lia].

Lemma work_rgb_nv12 smp dp c : work_1_2 any 20 (rgb_to_nv12 smp dp c).
Proof. intros w h ss s [ys us] [yb ub] _ W H. unfold rgb_to_nv12. spend. grid 160. destruct smp; count. Qed.
Lemma work_rgb_i420 smp dp c : work_1_3 any 20 (rgb_to_i420 smp dp c).
Proof. intros w h ss s [[ys us] vs] [[yb ub] vb] _ W H. unfold rgb_to_i420. spend. grid 160. destruct smp; count. Qed.
Lemma work_rgb_i444 smp dp c : work_1_3 any 20 (rgb_to_i444 smp dp c).
Proof. intros w h ss s [[ys us] vs] [[yb ub] vb] _ W H. unfold rgb_to_i444. spend. grid 40. destruct smp; count. Qed.
Lemma work_nv12_bgra c r : work_2_1 any 20 (nv12_to_bgra c r).
Proof. intros w h [ys us] [yb ub] ds d _ W H. unfold nv12_to_bgra. grid 160. destruct r; count. Qed.
Lemma work_nv12_rgb c : work_2_1 any 20 (nv12_to_rgb c).
Proof. intros w h [ys us] [yb ub] ds d _ W H. unfold nv12_to_rgb. grid 160. count. Qed.
Lemma work_i420_bgra c r : work_3_1 any 20 (i420_to_bgra c r).
Proof. intros w h [[ys us] vs] [[yb ub] vb] ds d _ W H. unfold i420_to_bgra. grid 160. destruct r; count. Qed.
Lemma work_i444_bgra c r : work_3_1 any 20 (i444_to_bgra c r).
Proof. intros w h [[ys us] vs] [[yb ub] vb] ds d _ W H. unfold i444_to_bgra. grid 40. destruct r; count. Qed.

Lemma work_sse2_nv12 smp dp c : work_1_2 any 20 (Sse2.rgb_to_nv12_sse2 smp dp c).
Proof. intros w h ss s [ys us] [yb ub] _ W H. unfold Sse2.rgb_to_nv12_sse2. cbv zeta. grid 320. destruct smp; count. Qed.
Lemma work_sse2_i420 smp dp c : work_1_3 any 20 (Sse2.rgb_to_i420_sse2 smp dp c).
Proof. intros w h ss s [[ys us] vs] [[yb ub] vb] _ W H. unfold Sse2.rgb_to_i420_sse2. cbv zeta. grid 320. destruct smp; count. Qed.
Lemma work_sse2_i444 smp dp c : work_1_3 any 20 (Sse2.rgb_to_i444_sse2 smp dp c).
Proof. intros w h ss s [[ys us] vs] [[yb ub] vb] _ W H. unfold Sse2.rgb_to_i444_sse2. cbv zeta. grid 160. destruct smp; count. Qed.
Lemma work_sse2_nv12_bgra c r : work_2_1 any 20 (Sse2.nv12_to_bgra_sse2 c r).
Proof. intros w h [ys us] [yb ub] ds d _ W H. unfold Sse2.nv12_to_bgra_sse2. grid 1280. destruct r; count. Qed.
Lemma work_sse2_i420_bgra c r : work_3_1 any 20 (Sse2.i420_to_bgra_sse2 c r).
Proof. intros w h [[ys us] vs] [[yb ub] vb] ds d _ W H. unfold Sse2.i420_to_bgra_sse2. grid 1280. destruct r; count. Qed.
Lemma work_sse2_i444_bgra c r : work_3_1 any 20 (Sse2.i444_to_bgra_sse2 c r).
Proof. intros w h [[ys us] vs] [[yb ub] vb] ds d _ W H. unfold Sse2.i444_to_bgra_sse2. cbv zeta. grid 320. destruct r; count. Qed.
Lemma work_avx2_nv12 smp dp c : work_1_2 any 20 (Avx2.rgb_to_nv12_avx2 smp dp c).
Proof. intros w h ss s [ys us] [yb ub] _ W H. unfold Avx2.rgb_to_nv12_avx2. cbv zeta. grid 640. destruct smp; count. Qed.
Lemma work_avx2_i420 smp dp c : work_1_3 any 20 (Avx2.rgb_to_i420_avx2 smp dp c).
Proof. intros w h ss s [[ys us] vs] [[yb ub] vb] _ W H. unfold Avx2.rgb_to_i420_avx2. cbv zeta. grid 640. destruct smp; count. Qed.
Lemma work_avx2_i444 smp dp c : work_1_3 any 20 (Avx2.rgb_to_i444_avx2 smp dp c).
Proof. intros w h ss s [[ys us] vs] [[yb ub] vb] _ W H. unfold Avx2.rgb_to_i444_avx2. cbv zeta. grid 320. destruct smp; count. Qed.
Lemma work_avx2_nv12_bgra c r : work_2_1 any 20 (Avx2.nv12_to_bgra_avx2 c r).
Proof. intros w h [ys us] [yb ub] ds d _ W H. unfold Avx2.nv12_to_bgra_avx2. grid 2560. destruct r; count. Qed.
Lemma work_avx2_nv12_rgb c : work_2_1 any 20 (Avx2.nv12_to_rgb_avx2 c).
Proof. intros w h [ys us] [yb ub] ds d _ W H. unfold Avx2.nv12_to_rgb_avx2. grid 2560. count. Qed.
Lemma work_avx2_i420_bgra c r : work_3_1 any 20 (Avx2.i420_to_bgra_avx2 c r).
Proof. intros w h [[ys us] vs] [[yb ub] vb] ds d _ W H. unfold Avx2.i420_to_bgra_avx2. grid 2560. destruct r; count. Qed.
Lemma work_avx2_i444_bgra c r : work_3_1 any 20 (Avx2.i444_to_bgra_avx2 c r).
Proof. intros w h [[ys us] vs] [[yb ub] vb] ds d _ W H. unfold Avx2.i444_to_bgra_avx2. cbv zeta. grid 640. destruct r; count. Qed.
Lemma work_neon_nv12 smp dp c : work_1_2 any 20 (Neon.rgb_to_nv12_neon smp dp c).
Proof. intros w h ss s [ys us] [yb ub] _ W H. unfold Neon.rgb_to_nv12_neon. cbv zeta. grid 640. destruct smp; count. Qed.
Lemma work_neon_i420 smp dp c : work_1_3 any 20 (Neon.rgb_to_i420_neon smp dp c).
Proof. intros w h ss s [[ys us] vs] [[yb ub] vb] _ W H. unfold Neon.rgb_to_i420_neon. cbv zeta. grid 640. destruct smp; count. Qed.
Lemma work_neon_i444 smp dp c : work_1_3 any 20 (Neon.rgb_to_i444_neon smp dp c).
Proof. intros w h ss s [[ys us] vs] [[yb ub] vb] _ W H. unfold Neon.rgb_to_i444_neon. cbv zeta. grid 320. destruct smp; count. Qed.

(** ** Re-orderings *)
Lemma lower_pot k w : 0 <= k -> 0 <= w -> lower_multiple_of_pot w (2 ^ k) = 2 ^ k * (w / 2 ^ k).
Proof.
  intros Hk Hw. unfold lower_multiple_of_pot. replace (2 ^ k - 1) with (Z.ones k) by (rewrite Z.ones_equiv; lia).
  rewrite Z.land_ones by lia. pose proof (Z.div_mod w (2 ^ k) ltac:(pose proof (Z.pow_pos_nonneg 2 k); lia)). lia.
Qed.
Lemma lower_8 w : 0 <= w -> lower_multiple_of_pot w 8 = 8 * (w / 8).
Proof. apply (lower_pot 3). lia. Qed.
Lemma lower_16 w : 0 <= w -> lower_multiple_of_pot w 16 = 16 * (w / 16).
Proof. apply (lower_pot 4). lia. Qed.
Lemma lower_32 w : 0 <= w -> lower_multiple_of_pot w 32 = 32 * (w / 32).
Proof. apply (lower_pot 5). lia. Qed.

(** A step that carries a position [x], moved by [dx], and two offsets. *)
Definition carries (dx k : Z) (f : Z * Z * Z -> M (Z * Z * Z)) :=
  forall x so do_, 0 <= x -> x + dx < 2 ^ 32 -> takes (f (x, so, do_)) k (fun s => fst (fst s) = x + dx).
Lemma carries_loop dx k f n x0 so do_ : carries dx k f -> 0 <= k -> 0 <= dx -> 0 <= x0 -> x0 + Z.of_nat n * dx < 2 ^ 32 ->
  takes (loop n (x0, so, do_) f) (Z.of_nat n * k) (fun s => fst (fst s) = x0 + Z.of_nat n * dx).
Proof.
  intros C Hk Hd Hx Hn. apply (takes_loop n f k (fun i s => fst (fst s) = x0 + i * dx)); [exact Hk| |cbn [fst]; lia].
  intros i [[x so'] do'] Hi E. cbn [fst] in E. subst x. eapply takes_mono; [apply C; nia|lia|]. cbv beta. intros s ->. lia.
Qed.
Lemma takes_uadd_exact a b : 0 <= a -> 0 <= b -> a + b < 2 ^ 32 -> takes (uadd a b) 1 (eq (a + b)).
Proof. intros. apply takes_ures_exact. lia. Qed.

Ltac carried :=
  repeat lazymatch goal with
  | |- takes (bind (uadd ?x ?n) ?k) _ (fun s => fst (fst s) = ?x + ?n) => eapply takes_then; [apply (takes_uadd_exact x n); lia|intros ? <-|]
  | |- takes (ret _) _ _ => apply takes_ret; reflexivity
  | |- 0 <= _ => first [lia|vm_compute; let H := fresh in intros H; discriminate H]
  | |- takes (match bgr_to_rgb_words ?a ?b ?c with _ => _ end) _ _ => destruct (bgr_to_rgb_words a b c) as [[? ?] ?]
  | |- takes (bind (ldn _ _ _) _) _ _ => eapply takes_then; [apply takes_ldn|let L := fresh in intros ? L; cbv beta in L|]
  | |- takes (bind _ _) _ _ => eapply takes_bind; [solve [repeat count_step]|intros ?|]
  | |- takes (let _ := _ in _) _ _ => cbv zeta
  | |- takes (match Avx2.bgra_to_rgb_32x _ _ _ _ with _ => _ end) _ _ => unfold Avx2.bgra_to_rgb_32x; cbv beta zeta iota
  end.
Lemma carries_bgr src dst : carries 8 160 (bgr_to_rgb_step8 src dst).
Proof. intros x so do_ X U. unfold bgr_to_rgb_step8. eapply takes_le; [carried|first [lia|cbn; lia]]. Qed.
Lemma carries_swap sd dd src dst : carries 1 20 (swap_copy_step1 sd dd src dst).
Proof. intros x so do_ X U. unfold swap_copy_step1. eapply takes_le; [carried|first [lia|cbn; lia]]. Qed.
Lemma carries_bgra src dst : carries 8 160 (bgra_to_rgb_step8 src dst).
Proof. intros x so do_ X U. unfold bgra_to_rgb_step8. eapply takes_le; [carried|first [lia|cbn; lia]]. Qed.
Lemma carries_rgb8 src dst : carries 8 160 (rgb_to_bgra_step8 src dst).
Proof. intros x so do_ X U. unfold rgb_to_bgra_step8. eapply takes_le; [carried|first [lia|cbn; lia]]. Qed.
Lemma carries_rgb1 src dst : carries 1 20 (rgb_to_bgra_step1 src dst).
Proof. intros x so do_ X U. unfold rgb_to_bgra_step1. eapply takes_le; [carried|first [lia|cbn; lia]]. Qed.

(** Eight pixels at a time, then one at a time *)
Lemma eights w so do_ f g : 0 < w < 2 ^ 32 -> carries 8 160 f -> carries 1 20 g ->
  takes (s1 <- loop (Z.to_nat ((lower_multiple_of_pot w 8 + 7) / 8)) (0, so, do_) f ;;
          loop (Z.to_nat (w - fst (fst s1))) s1 g ;; ret tt) (20 * w) any.
Proof.
  intros W F G. rewrite lower_8 by lia.
  eapply takes_le; [eapply takes_then with (n' := Z.of_nat (Z.to_nat (w - 8 * (w / 8))) * 20); [apply (carries_loop 8 160 f _ 0 so do_ F); lia|intros [[x so'] do'] E; cbn [fst] in *; apply takes_last|lia]|].
  - assert (x = 8 * (w / 8)) as -> by lia.
    eapply takes_mono; [apply (carries_loop 1 20 g _ _ so' do' G); lia|apply Z.le_refl|intros; exact I].
  - rewrite !Z2Nat.id by lia.
    replace ((8 * (w / 8) + 7) / 8) with (w / 8) by lia. lia.
Qed.
Lemma takes_spare {A} (c : M A) n a P : takes c n P -> 0 <= a -> takes c (a + n) P.
Proof. intros H L. eapply takes_le; [exact H|lia]. Qed.
Lemma work_bgr_rgb : work_1_1 any 20 bgr_to_rgb.
Proof.
  intros w h ss s ds d _ W H. unfold bgr_to_rgb. cbv zeta. apply takes_spare; [|lia]. apply takes_for; [exact H|lia|]. intros i. spend.
  eapply takes_le; [apply eights; [exact W|apply carries_bgr|apply carries_swap]|lia].
Qed.
Lemma work_bgra_rgb : work_1_1 any 20 bgra_to_rgb.
Proof.
  intros w h ss s ds d _ W H. unfold bgra_to_rgb. spend. cbv zeta. apply (takes_le _ (h * (40 * w))); [|lia]. apply takes_for; [exact H|lia|]. intros i. spend.
  eapply takes_le; [apply eights; [exact W|apply carries_bgra|apply carries_swap]|lia].
Qed.
Lemma takes_last_pixel s d w x so do_ : takes (rgb_to_bgra_last s d w (x, so, do_)) (if x <? w then 20 else 0) any.
Proof. unfold rgb_to_bgra_last. destruct (x <? w); count. Qed.
Lemma work_rgb_line w h sdiff ddiff s d st_ : 0 < w < 2 ^ 32 -> takes (rgb_to_bgra_line w h sdiff ddiff s d st_) (20 + 20 * w) any.
Proof.
  intros W. destruct st_ as [[y so] do_]. unfold rgb_to_bgra_line. spend. cbv zeta.
  eapply takes_le; [eapply takes_then with (P := fun v => 0 <= v <= w) (n := 1) (n' := 14 + 20 * w); [| |lia]|].
  - destruct (_ || _); [|eapply takes_le; [apply takes_ret; lia|lia]]. eapply takes_mono; [apply takes_ures_exact; lia|lia|]. cbv beta. lia.
  - intros single S. eapply takes_le; [eapply takes_then with (P := fun v => 0 <= v <= w /\ v mod 8 = 0) (n := 1) (n' := 12 + 20 * w); [| |lia]|lia].
    + destruct (_ || _); [|eapply takes_le; [apply takes_ret; lia|lia]]. eapply takes_le; [eapply takes_then; [apply takes_ures_exact; lia| |]|].
      * intros wm <-. apply takes_ret. lia.
      * lia.
      * lia.
    + intros multi [M1 M2].
      assert (M3 : (multi + 7) / 8 = multi / 8) by lia. rewrite M3.
      eapply takes_le; [eapply takes_then with (n' := 12 + 20 * (w - multi)); [apply (carries_loop 8 160 _ _ 0 so do_ (carries_rgb8 s d)); lia|intros [[x so'] do'] E; cbn [fst] in *|lia]|].
      * assert (x = multi) as -> by lia. clear E.
        eapply takes_le; [eapply takes_then with (n' := 12 + (if multi + Z.of_nat (Z.to_nat (single - multi)) <? w then 20 else 0)); [apply (carries_loop 1 20 _ _ _ so' do' (carries_rgb1 s d)); lia|intros [[x so''] do''] E; cbn [fst] in *|destruct (_ <? _); lia]|].
        -- assert (x = multi + Z.of_nat (Z.to_nat (single - multi))) as -> by lia. eapply takes_le; [eapply takes_bind with (n' := 12); [apply takes_last_pixel|intros [? ?]; count|lia]|rewrite Z.add_comm; apply Z.le_refl].
        -- destruct (multi <=? single) eqn:L.
           ++ rewrite Z2Nat.id by lia. destruct (_ <? _) eqn:?; lia.
           ++ replace (Z.to_nat (single - multi)) with 0%nat by lia. destruct (_ <? _) eqn:?; lia.
      * rewrite Z2Nat.id by lia. lia.
  - lia.
Qed.
Lemma work_rgb_bgra : work_1_1 any 20 rgb_to_bgra.
Proof.
  intros w h ss s ds d _ W H. unfold rgb_to_bgra. spend. apply takes_last.
  eapply takes_le; [apply takes_loop_any with (k := 40 * w); [lia|intros s'; eapply takes_le; [apply work_rgb_line; exact W|lia]]|]. rewrite Z2Nat.id by lia. lia.
Qed.

(** Vector registers *)
Lemma strips n k w f s : 0 < n -> 0 < w -> w mod n = 0 -> k = n * 20 -> (forall s, takes (f s) k any) ->
  takes (loop (Z.to_nat ((w + (n - 1)) / n)) (s : Z * Z) f) (20 * w) any.
Proof.
  intros N W M -> F. eapply takes_le; [apply takes_loop_any with (k := n * 20); [lia|exact F]|].
  assert (E : w = n * (w / n)) by (pose proof (Z.div_mod w n); lia).
  assert (E' : (w + (n - 1)) / n = w / n).
  { rewrite E at 1. replace (n * (w / n) + (n - 1)) with ((n - 1) + (w / n) * n) by lia. rewrite Z.div_add by lia. rewrite Z.div_small by lia. lia. }
  rewrite E', Z2Nat.id by (apply Z.div_pos; lia). rewrite E at 2. nia.
Qed.
Lemma step_sse2_rgb s d st_ : takes (Sse2.rgb_to_bgra_step16 s d st_) 320 any.
Proof. destruct st_. count. Qed.
Lemma step_avx2_rgb s d st_ : takes (Avx2.rgb_to_bgra_step32 s d st_) 640 any.
Proof. destruct st_. count. Qed.
Lemma step_avx2_bgr s d st_ : takes (Avx2.bgr_to_rgb_step32 s d st_) 640 any.
Proof. destruct st_. count. Qed.
Lemma work_sse2_rgb_bgra : work_1_1 (fun w => w mod 16 = 0) 20 Sse2.rgb_to_bgra_sse2.
Proof.
  intros w h ss s ds d P W H. unfold Sse2.rgb_to_bgra_sse2. spend. apply takes_last.
  eapply takes_le; [apply takes_loop_any with (k := 40 * w); [lia|]|rewrite Z2Nat.id by lia; lia].
  intros st_. eapply takes_le; [eapply takes_bind with (n' := 20); [apply (strips 16 320 w); try lia; apply step_sse2_rgb|intros [? ?]; count|lia]|lia].
Qed.
Lemma work_avx2_rgb_bgra : work_1_1 (fun w => w mod 32 = 0) 20 Avx2.rgb_to_bgra_avx2.
Proof.
  intros w h ss s ds d P W H. unfold Avx2.rgb_to_bgra_avx2. spend. apply takes_last.
  eapply takes_le; [apply takes_loop_any with (k := 40 * w); [lia|]|rewrite Z2Nat.id by lia; lia].
  intros st_. eapply takes_le; [eapply takes_bind with (n' := 20); [apply (strips 32 640 w); try lia; apply step_avx2_rgb|intros [? ?]; count|lia]|lia].
Qed.
Lemma work_avx2_bgr_rgb : work_1_1 (fun w => w mod 32 = 0) 20 Avx2.bgr_to_rgb_avx2.
Proof.
  intros w h ss s ds d P W H. unfold Avx2.bgr_to_rgb_avx2. apply takes_spare; [|lia]. apply takes_for; [exact H|lia|]. intros i. spend. apply takes_last.
  eapply takes_le; [apply (strips 32 640 w); try lia; apply step_avx2_bgr|lia].
Qed.

Lemma carries_avx2_32 src dst : carries 32 640 (Avx2.bgra_to_rgb_step32 src dst).
Proof.
  intros x so do_ X U. unfold Avx2.bgra_to_rgb_step32.
  change Avx2.LANE_COUNT with 32. eapply takes_le; [carried|first [lia|cbn; lia]].
Qed.
Lemma carries_avx2_8 src dst : carries 8 160 (Avx2.bgra_to_rgb_step8_avx2 src dst).
Proof.
  intros x so do_ X U. unfold Avx2.bgra_to_rgb_step8_avx2. cbv zeta. eapply takes_le; [carried|first [lia|cbn; lia]].
Qed.
Lemma step_avx2_rest s d so do_ y : takes (Avx2.bgra_to_rgb_rest1 s d so do_ y) 22 any.
Proof. count. Qed.
Lemma work_avx2_bgra_rgb : work_1_1 any 20 Avx2.bgra_to_rgb_avx2.
Proof.
  intros w h ss s ds d _ W H. unfold Avx2.bgra_to_rgb_avx2. spend. cbv zeta. change Avx2.LANE_COUNT with 32.
  rewrite lower_32, lower_8 by lia.
  eapply takes_le; [eapply takes_then with (P := any) (n := h * (8 + 20 * (8 * (w / 8)))) (n' := h * (8 + 22 * (w - 8 * (w / 8)))); [| |nia]|].
  - apply takes_for; [exact H|lia|]. intros i. spend.
    assert (M3 : (32 * (w / 32) + 31) / 32 = w / 32) by lia. rewrite M3.
    assert (M4 : (8 * (w / 8) - 32 * (w / 32) + 7) / 8 = w / 8 - 4 * (w / 32)) by lia.
    eapply takes_le; [eapply takes_then with (n' := (w / 8 - 4 * (w / 32)) * 160); [apply (carries_loop 32 640 _ _ 0 _ _ (carries_avx2_32 s d)); lia|intros [[x so'] do'] E; cbn [fst] in *|lia]|].
    + assert (x = 32 * (w / 32)) as -> by lia. clear E. apply takes_last. eapply takes_mono; [|apply Z.le_refl|intros; exact I]. rewrite M4.
      replace ((w / 8 - 4 * (w / 32)) * 160) with (Z.of_nat (Z.to_nat (w / 8 - 4 * (w / 32))) * 160) by (rewrite Z2Nat.id by lia; reflexivity).
      apply (carries_loop 8 160 _ _ _ so' do' (carries_avx2_8 s d)); lia.
    + rewrite !Z2Nat.id by lia. lia.
  - intros _ _. destruct (8 * (w / 8) =? w) eqn:E; [apply takes_retn; nia|]. apply takes_last.
    eapply takes_le; [apply takes_loop_any with (k := 8 + 22 * (w - 8 * (w / 8))); [lia|]|rewrite Z2Nat.id by lia; apply Z.le_refl].
    intros [so do_]. eapply takes_le; [eapply takes_then with (P := any) (n' := 8)|].
    + apply takes_for_from with (k := 22); [lia|]. intros y. apply step_avx2_rest.
    + intros _ _. count.
    + lia.
    + rewrite Z2Nat.id by lia. lia.
  - rewrite <- Z.mul_add_distr_l. transitivity (h * (40 * w)); [apply same_rows; lia|lia].
Qed.
Lemma step_neon m out s d st_ : (m <= 4)%nat -> (forall x, length (Neon.interleave 16 (out x)) <= 64)%nat -> takes (Neon.reorder_step16 m out s d st_) 320 any.
Proof.
  intros L K. destruct st_ as [so do_]. unfold Neon.reorder_step16. cbv zeta.
  eapply takes_le; [eapply takes_bind with (n' := 100); [eapply takes_mono; [apply takes_ldn|apply Z.le_refl|intros; exact I]|intros x|lia]|].
  - eapply takes_le; [eapply takes_bind with (n := 64) (n' := 20); [eapply takes_le; [apply takes_stn|unfold zlen; specialize (K x); lia]|intros _; count|lia]|lia].
  - lia.
Qed.
Lemma work_neon_reorder m out : (m <= 4)%nat -> (forall x, length (Neon.interleave 16 (out x)) <= 64)%nat ->
  work_1_1 (fun w => w mod 16 = 0) 20 (Neon.reorder_neon m out).
Proof.
  intros L K w h ss s ds d P W H. unfold Neon.reorder_neon. apply takes_spare; [|lia]. apply takes_for; [exact H|lia|]. intros i. spend. apply takes_last.
  eapply takes_le; [apply (strips 16 320 w); try lia; intros st_; apply step_neon; assumption|lia].
Qed.

(** ** Vector part and scalar part *)
Definition divides_width (vp : Z -> Z) (P : Z -> Prop) := forall w, 0 < w -> 0 <= vp w <= w /\ P (vp w).
Lemma takes_from s i : takes (slice_from s i) 0 any.
Proof. unfold slice_from. destruct (_ && _); [apply takes_ret; exact I|apply takes_raise]. Qed.
Ltac hybrid V K :=
  match goal with D : divides_width ?vp ?P, W : 0 < ?w < _, H : 0 <= ?h |- _ => is_var h;
    let L := fresh in destruct (D w ltac:(lia)) as [L ?];
    assert (0 <= h * (40 * vp w)) by nia; assert (0 <= h * (40 * (w - vp w))) by nia;
    apply (takes_le _ ((20 + h * (40 * vp w)) + (30 + h * (40 * (w - vp w))))); [|lia];
    apply (takes_bind _ _ (20 + h * (40 * vp w)) (30 + h * (40 * (w - vp w))));
    [destruct (_ <? _) eqn:?; [apply V; [assumption|lia|lia]|apply takes_retn; lia]|intros _; destruct (_ <? _) eqn:?; [|apply takes_retn; lia]|lia] end;
  repeat lazymatch goal with
  | |- takes (bind (umul _ _) _) _ _ => apply (takes_spend 1); [count|lia|intros ?]
  | |- takes (bind (slice_from _ _) _) _ _ => apply (takes_spend 0); [apply takes_from|lia|intros ?]
  end; eapply takes_le; [apply K; [exact I|lia|lia]|lia].
Lemma work_hyb_1_2 vp P dp kv ks : divides_width vp P -> work_1_2 P 20 kv -> work_1_2 any 20 ks -> work_1_2 any 50 (hyb_1_2 vp dp kv ks).
Proof. intros D V K w h ss s ds d _ W H. unfold hyb_1_2. cbv zeta. hybrid V K. Qed.
Lemma work_hyb_1_3 vp P sub dp kv ks : divides_width vp P -> work_1_3 P 20 kv -> work_1_3 any 20 ks -> work_1_3 any 50 (hyb_1_3 vp sub dp kv ks).
Proof. intros D V K w h ss s ds [[d0 d1] d2] _ W H. unfold hyb_1_3. cbv zeta. hybrid V K. Qed.
Lemma work_hyb_2_1 vp P dp kv ks : divides_width vp P -> work_2_1 P 20 kv -> work_2_1 any 20 ks -> work_2_1 any 50 (hyb_2_1 vp dp kv ks).
Proof. intros D V K w h ss s ds d _ W H. unfold hyb_2_1. cbv zeta. hybrid V K. Qed.
Lemma work_hyb_3_1 vp P sub dp kv ks : divides_width vp P -> work_3_1 P 20 kv -> work_3_1 any 20 ks -> work_3_1 any 50 (hyb_3_1 vp sub dp kv ks).
Proof. intros D V K w h ss [[s0 s1] s2] ds d _ W H. unfold hyb_3_1. cbv zeta. hybrid V K. Qed.
Lemma work_hyb_1_1 vp P sd dd kv ks : divides_width vp P -> work_1_1 P 20 kv -> work_1_1 any 20 ks -> work_1_1 any 50 (hyb_1_1 vp sd dd kv ks).
Proof. intros D V K w h ss s ds d _ W H. unfold hyb_1_1. cbv zeta. hybrid V K. Qed.
Lemma only_1_2 k : work_1_2 any 20 k -> work_1_2 any 50 k.
Proof. intros K w h ss s ds d P W H. eapply takes_le; [apply K; assumption|lia]. Qed.
Lemma only_1_3 k : work_1_3 any 20 k -> work_1_3 any 50 k.
Proof. intros K w h ss s ds d P W H. eapply takes_le; [apply K; assumption|lia]. Qed.
Lemma only_2_1 k : work_2_1 any 20 k -> work_2_1 any 50 k.
Proof. intros K w h ss s ds d P W H. eapply takes_le; [apply K; assumption|lia]. Qed.
Lemma only_3_1 k : work_3_1 any 20 k -> work_3_1 any 50 k.
Proof. intros K w h ss s ds d P W H. eapply takes_le; [apply K; assumption|lia]. Qed.
Lemma only_1_1 k : work_1_1 any 20 k -> work_1_1 any 50 k.
Proof. intros K w h ss s ds d P W H. eapply takes_le; [apply K; assumption|lia]. Qed.

(** ** The wrappers *)
Lemma takes_aidx {A} (a : arr A) i : takes (aidx a i) 0 any.
Proof. unfold aidx. destruct (_ && _); [|apply takes_raise]. destruct (nth_error _ _); [apply takes_ret; exact I|apply takes_raise]. Qed.
Lemma takes_split s i : takes (split_at s i) 0 any.
Proof. unfold split_at. destruct (_ && _); [apply takes_ret; exact I|apply takes_raise]. Qed.
Lemma takes_orM a b n m : takes a n any -> takes b m any -> 0 <= m -> takes (orM a b) (n + m) any.
Proof. intros A B M. unfold orM. apply takes_bind; [exact A| |exact M]. intros []; [apply takes_retn; exact M|exact B]. Qed.
Lemma takes_oob_call a b c d : takes (oob_call a b c d) 6 any.
Proof. unfold oob_call. change 6 with (1 + 5). apply takes_bind; [apply takes_ures; exact I|intros ?; apply takes_oob|lia]. Qed.
Ltac checks := lazymatch goal with |- takes (orM _ _) _ _ => eapply takes_orM; [checks|checks|lia] | _ => apply takes_oob_call end.
Ltac wrap :=
  repeat lazymatch goal with
  | |- takes (if ?b then _ else _) _ _ => destruct b eqn:?
  | |- takes (ret _) _ _ => apply takes_retn; lia
  | |- takes (bind (umul _ _) _) _ _ => apply (takes_spend 1); [count|lia|intros ?]
  | |- takes (bind (aidx _ _) _) _ _ => apply (takes_spend 0); [apply takes_aidx|lia|intros ?]
  | |- takes (bind (split_at _ _) _) _ _ => apply (takes_spend 0); [apply takes_split|lia|intros ?]
  | |- takes (bind (orM _ _) _) _ _ => eapply takes_spend; [checks|lia|intros ?]
  end.
Ltac positive := match goal with W : 0 <= ?w < _, H : 0 <= ?h |- _ => is_var h; assert (0 <= h * (40 * w)) by nia end.
Ltac finish K := apply takes_last; eapply takes_le; [apply K; [exact I|lia|lia]|lia].
Lemma work_rgb_rgb_w sd dd k w h l ss sb l' ds db : work_1_1 any 50 k -> 0 <= w < 2 ^ 32 -> 0 <= h ->
  takes (rgb_rgb_w sd dd k w h l ss sb l' ds db) (100 + h * (40 * w)) any.
Proof. intros K W H. positive. unfold rgb_rgb_w. cbv zeta. wrap. finish K. Qed.
Lemma work_rgb_i4xx_w sub dp k w h l ss sb l' ds db : work_1_3 any 50 k -> 0 <= w < 2 ^ 32 -> 0 <= h ->
  takes (rgb_i4xx_w sub dp k w h l ss sb l' ds db) (100 + h * (40 * w)) any.
Proof. intros K W H. positive. unfold rgb_i4xx_w. cbv zeta. wrap. finish K. Qed.
Lemma work_i4xx_rgb_w sub dp k w h l ss sb l' ds db : work_3_1 any 50 k -> 0 <= w < 2 ^ 32 -> 0 <= h ->
  takes (i4xx_rgb_w sub dp k w h l ss sb l' ds db) (100 + h * (40 * w)) any.
Proof. intros K W H. positive. unfold i4xx_rgb_w. cbv zeta. wrap. finish K. Qed.
Lemma work_rgb_nv12_w dp k w h l ss sb l' ds db : work_1_2 any 50 k -> 0 <= w < 2 ^ 32 -> 0 <= h ->
  takes (rgb_nv12_w dp k w h l ss sb l' ds db) (100 + h * (40 * w)) any.
Proof.
  intros K W H. positive. unfold rgb_nv12_w. cbv zeta. wrap.
  apply (takes_spend 20); [wrap|lia|intros [[yb uvb]|]; [|apply takes_retn; lia]].
  wrap. finish K.
Qed.
Lemma work_nv12_rgb_w dp k w h l ss sb l' ds db : work_2_1 any 50 k -> 0 <= w < 2 ^ 32 -> 0 <= h ->
  takes (nv12_rgb_w dp k w h l ss sb l' ds db) (100 + h * (40 * w)) any.
Proof.
  intros K W H. positive. unfold nv12_rgb_w. cbv zeta. wrap.
  apply (takes_spend 20); [wrap|lia|intros [[yb uvb]|]; [|apply takes_retn; lia]].
  wrap. finish K.
Qed.

(** ** The converters *)
Lemma div_lower n (P : Z -> Prop) : (forall w, 0 <= w -> lower_multiple_of_pot w n = n * (w / n)) -> 0 < n -> (forall w, w mod n = 0 -> P w) ->
  divides_width (fun w => lower_multiple_of_pot w n) P.
Proof.
  intros E N H w W. rewrite E by lia. pose proof (Z.div_pos w n). pose proof (Z.mul_div_le w n). split; [nia|]. apply H.
  rewrite Z.mul_comm. apply Z.mod_mul. lia.
Qed.
Lemma lower_4 w : 0 <= w -> lower_multiple_of_pot w 4 = 4 * (w / 4).
Proof. apply (lower_pot 2). lia. Qed.
Lemma div_fwd n dp : (forall w, 0 <= w -> lower_multiple_of_pot w n = n * (w / n)) -> 0 < n -> divides_width (fwd_vector_part n dp) any.
Proof.
  intros E N w W. unfold fwd_vector_part. destruct (dp =? 3) eqn:D.
  - assert (dp = 3) as -> by lia. pose proof (Z.div_pos w (3 * n)). pose proof (Z.mul_div_le w (3 * n)). split; [nia|exact I].
  - apply (div_lower n any E N); [intros; exact I|exact W].
Qed.
Ltac divided := first [apply div_fwd; [first [apply lower_4|apply lower_8]|lia] | apply div_lower; [first [exact lower_8|exact lower_16|exact lower_32]|lia|auto; intros; exact I]].
Definition fits_work (set : instruction_set) (c : conv) := forall w h l ss sb l' ds db, 0 <= w < 2 ^ 32 -> 0 <= h ->
  takes (converters set c w h l ss sb l' ds db) (100 + h * (40 * w)) any.

Lemma work_neon_bgr_to_rgb_neon : work_1_1 (fun w => w mod 16 = 0) 20 Neon.bgr_to_rgb_neon.
Proof. apply work_neon_reorder; [lia|intros x; rewrite (el_interleave 16 _ [[]; []; []]) by reflexivity; vm_compute; lia]. Qed.
Lemma work_neon_bgra_to_rgb_neon : work_1_1 (fun w => w mod 16 = 0) 20 Neon.bgra_to_rgb_neon.
Proof. apply work_neon_reorder; [lia|intros x; rewrite (el_interleave 16 _ [[]; []; []]) by reflexivity; vm_compute; lia]. Qed.
Lemma work_neon_rgb_to_bgra_neon : work_1_1 (fun w => w mod 16 = 0) 20 Neon.rgb_to_bgra_neon.
Proof. apply work_neon_reorder; [lia|intros x; rewrite (el_interleave 16 _ [[]; []; []; []]) by reflexivity; vm_compute; lia]. Qed.
Ltac kernel :=
  lazymatch goal with
  | |- work_1_1 _ _ (bgr_to_rgb) => exact (work_bgr_rgb)
  | |- work_1_1 _ _ (bgra_to_rgb) => exact (work_bgra_rgb)
  | |- work_1_1 _ _ (rgb_to_bgra) => exact (work_rgb_bgra)
  | |- work_1_2 _ _ (rgb_to_nv12 _ _ _) => exact (work_rgb_nv12 _ _ _)
  | |- work_1_3 _ _ (rgb_to_i420 _ _ _) => exact (work_rgb_i420 _ _ _)
  | |- work_1_3 _ _ (rgb_to_i444 _ _ _) => exact (work_rgb_i444 _ _ _)
  | |- work_2_1 _ _ (nv12_to_bgra _ _) => exact (work_nv12_bgra _ _)
  | |- work_2_1 _ _ (nv12_to_rgb _) => exact (work_nv12_rgb _)
  | |- work_3_1 _ _ (i420_to_bgra _ _) => exact (work_i420_bgra _ _)
  | |- work_3_1 _ _ (i444_to_bgra _ _) => exact (work_i444_bgra _ _)
  | |- work_1_2 _ _ (Sse2.rgb_to_nv12_sse2 _ _ _) => exact (work_sse2_nv12 _ _ _)
  | |- work_1_3 _ _ (Sse2.rgb_to_i420_sse2 _ _ _) => exact (work_sse2_i420 _ _ _)
  | |- work_1_3 _ _ (Sse2.rgb_to_i444_sse2 _ _ _) => exact (work_sse2_i444 _ _ _)
  | |- work_2_1 _ _ (Sse2.nv12_to_bgra_sse2 _ _) => exact (work_sse2_nv12_bgra _ _)
  | |- work_3_1 _ _ (Sse2.i420_to_bgra_sse2 _ _) => exact (work_sse2_i420_bgra _ _)
  | |- work_3_1 _ _ (Sse2.i444_to_bgra_sse2 _ _) => exact (work_sse2_i444_bgra _ _)
  | |- work_1_1 _ _ (Sse2.rgb_to_bgra_sse2) => exact (work_sse2_rgb_bgra)
  | |- work_1_2 _ _ (Avx2.rgb_to_nv12_avx2 _ _ _) => exact (work_avx2_nv12 _ _ _)
  | |- work_1_3 _ _ (Avx2.rgb_to_i420_avx2 _ _ _) => exact (work_avx2_i420 _ _ _)
  | |- work_1_3 _ _ (Avx2.rgb_to_i444_avx2 _ _ _) => exact (work_avx2_i444 _ _ _)
  | |- work_2_1 _ _ (Avx2.nv12_to_rgb_avx2 _) => exact (work_avx2_nv12_rgb _)
  | |- work_2_1 _ _ (Avx2.nv12_to_bgra_avx2 _ _) => exact (work_avx2_nv12_bgra _ _)
  | |- work_3_1 _ _ (Avx2.i420_to_bgra_avx2 _ _) => exact (work_avx2_i420_bgra _ _)
  | |- work_3_1 _ _ (Avx2.i444_to_bgra_avx2 _ _) => exact (work_avx2_i444_bgra _ _)
  | |- work_1_1 _ _ (Avx2.rgb_to_bgra_avx2) => exact (work_avx2_rgb_bgra)
  | |- work_1_1 _ _ (Avx2.bgr_to_rgb_avx2) => exact (work_avx2_bgr_rgb)
  | |- work_1_1 _ _ (Avx2.bgra_to_rgb_avx2) => exact (work_avx2_bgra_rgb)
  | |- work_1_2 _ _ (Neon.rgb_to_nv12_neon _ _ _) => exact (work_neon_nv12 _ _ _)
  | |- work_1_3 _ _ (Neon.rgb_to_i420_neon _ _ _) => exact (work_neon_i420 _ _ _)
  | |- work_1_3 _ _ (Neon.rgb_to_i444_neon _ _ _) => exact (work_neon_i444 _ _ _)
  | |- work_1_1 _ _ (Neon.bgr_to_rgb_neon) => exact (work_neon_bgr_to_rgb_neon)
  | |- work_1_1 _ _ (Neon.bgra_to_rgb_neon) => exact (work_neon_bgra_to_rgb_neon)
  | |- work_1_1 _ _ (Neon.rgb_to_bgra_neon) => exact (work_neon_rgb_to_bgra_neon)
  end.
Ltac hybrids :=
  lazymatch goal with
  | |- work_1_1 _ _ (hyb_1_1 _ _ _ _ _) => eapply work_hyb_1_1; [|kernel|kernel]; divided
  | |- work_1_2 _ _ (hyb_1_2 _ _ _ _) => eapply work_hyb_1_2; [|kernel|kernel]; divided
  | |- work_1_3 _ _ (hyb_1_3 _ _ _ _ _) => eapply work_hyb_1_3; [|kernel|kernel]; divided
  | |- work_2_1 _ _ (hyb_2_1 _ _ _ _) => eapply work_hyb_2_1; [|kernel|kernel]; divided
  | |- work_3_1 _ _ (hyb_3_1 _ _ _ _ _) => eapply work_hyb_3_1; [|kernel|kernel]; divided
  | |- work_1_1 _ _ _ => apply only_1_1; kernel
  | |- work_1_2 _ _ _ => apply only_1_2; kernel
  | |- work_1_3 _ _ _ => apply only_1_3; kernel
  | |- work_2_1 _ _ _ => apply only_2_1; kernel
  | |- work_3_1 _ _ _ => apply only_3_1; kernel
  end.
Ltac converter :=
  unfold fits_work; intros w h l ss sb l' ds db W H; cbn [converters x86_converter sse2_converter avx2_converter neon_converter pf_depth];
  first [apply work_rgb_rgb_w|apply work_rgb_i4xx_w|apply work_rgb_nv12_w|apply work_i4xx_rgb_w|apply work_nv12_rgb_w];
  try lia; change (4 =? 4) with true; change (3 =? 4) with false; change (3 =? 3) with true; change (4 =? 3) with false; cbv iota; consts;
  change Sse2.LANE_COUNT with 16; change Avx2.LANE_COUNT with 32; change Neon.LANE_COUNT with 16; hybrids.
Lemma work_x86 spf dpf scs dcs : supported spf dpf = true -> fits_work X86 (conv_of spf dpf scs dcs).
Proof. intros S. destruct spf, dpf; try discriminate S; cbn [conv_of is_rgb]; converter. Qed.
Lemma work_sse2 spf dpf scs dcs : supported spf dpf = true -> fits_work CpuInfo.Sse2 (conv_of spf dpf scs dcs).
Proof. intros S. destruct spf, dpf; try discriminate S; cbn [conv_of is_rgb]; converter. Qed.
Lemma work_avx2 spf dpf scs dcs : supported spf dpf = true -> fits_work CpuInfo.Avx2 (conv_of spf dpf scs dcs).
Proof. intros S. destruct spf, dpf; try discriminate S; cbn [conv_of is_rgb]; converter. Qed.
Lemma work_neon spf dpf scs dcs : supported spf dpf = true -> fits_work CpuInfo.Neon (conv_of spf dpf scs dcs).
Proof. intros S. destruct spf, dpf; try discriminate S; cbn [conv_of is_rgb]; converter. Qed.
End Work.
