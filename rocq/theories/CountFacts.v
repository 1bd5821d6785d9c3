(** Number of bytes the functions write: an upper bound for each of them. *)
From Coq Require Import ZArith List Bool Lia ZifyBool ZifyNat.
Import ListNotations.
From Verif Require Import Base Fmt Dispatch Common Scalar Wrappers Simd Vector CpuInfo Lib Sets Spec ApiSpec Api LibFacts Trace BigFacts DataFacts.
From Verif Require Sse2 Avx2 Neon.
Open Scope Z_scope.
Ltac Zify.zify_post_hook ::= Z.div_mod_to_equations.

(** Whatever is read, and whichever way i32 arithmetic goes, [Q] holds of the number of writes and
    the result. *)
Fixpoint tally {A} (T : target) (c : M A) (Q : Z -> A -> Prop) {struct c} : Prop :=
  match c with
  | Ret a => Q 0 a
  | Raise _ => True
  | Bind c k => tally T c (fun n b => tally T (k b) (fun n' a => Q (n + n') a))
  | Ask k => tally T (k T) Q
  | Usize r k => tally T (k (r mod usz T)) Q
  | Int32 _ k => forall v, tally T (k v) Q
  | Read _ _ k => forall v, tally T (k v) Q
  | Write _ _ _ k => tally T (k tt) (fun n a => Q (1 + n) a)
  end.

Lemma tally_mono {A} T (c : M A) : forall P Q : Z -> A -> Prop, (forall n a, P n a -> Q n a) -> tally T c P -> tally T c Q.
Proof.
  induction c as [a|f|A B c IH k IHk|A k IH|A r k IH|A r k IH|A s i k IH|A s i v k IH]; intros P Q H; cbn [tally]; auto.
  - apply IH. intros n b. apply IHk. auto.
  - apply IH. auto.
  - apply IH. auto.
  - intros K v. eapply IH; eauto.
  - intros K v. eapply IH; eauto.
  - apply IH. auto.
Qed.

(** Number of writes among accesses. *)
Definition is_write (x : access) : bool := match x with Writes _ _ _ => true | _ => false end.
Definition writes (l : list access) : Z := zlen (filter is_write l).
Lemma writes_app l l' : writes (l ++ l') = writes l + writes l'.
Proof. unfold writes, zlen. rewrite filter_app, app_length. lia. Qed.

Lemma tally_sound {A} T (c : M A) : 0 < usz T -> forall Q m a m', snd (traced c T m) = Ok a m' -> tally T c Q ->
  Q (writes (fst (traced c T m))) a.
Proof.
  intros Hu. induction c as [a|f|A B c IH k IHk|A k IH|A r k IH|A r k IH|A s i k IH|A s i v k IH]; intros Q m x m' E H; cbn [traced tally] in *.
  - injection E as -> _. exact H.
  - discriminate E.
  - destruct (traced c T m) as [l [b m1|f]] eqn:E1; [|discriminate E].
    specialize (IH _ m b m1 ltac:(rewrite E1; reflexivity) H). rewrite E1 in IH. cbn [fst] in IH.
    destruct (traced (k b) T m1) as [l' r] eqn:E2. cbn [snd] in E. subst r. cbn [fst].
    specialize (IHk b _ m1 x m' ltac:(rewrite E2; reflexivity) IH). rewrite E2 in IHk. cbn [fst] in IHk.
    rewrite writes_app. exact IHk.
  - eapply IH; eassumption.
  - destruct ((0 <=? r) && (r <? usz T)) eqn:D.
    + rewrite Z.mod_small in H by lia. eapply IH; eassumption.
    + destruct (checked T); [discriminate E|eapply IH; eassumption].
  - destruct (_ && _); [eapply IH; eauto|]. destruct (checked T); [discriminate E|eapply IH; eauto].
  - cbv zeta in *. destruct (_ && _ && _ && _); [|discriminate E].
    match goal with |- context [traced (k ?v) T m] => specialize (IH v Q m x m'); destruct (traced (k v) T m) as [l r] end.
    cbn [snd fst] in *. exact (IH E (H _)).
  - cbv zeta in *. destruct (s_plane s) as [n|n]; [discriminate E|]. destruct (_ && _ && _ && _); [|discriminate E].
    match goal with |- context [traced (k tt) T ?m1] => specialize (IH tt (fun n a => Q (1 + n) a) m1 x m'); destruct (traced (k tt) T m1) as [l r] end.
    cbn [snd fst] in *. specialize (IH E H). cbv beta in IH.
    replace (writes (Writes (Dst n) (s_off s + i) v :: l)) with (1 + writes l); [exact IH|].
    unfold writes, zlen. cbn [filter is_write length]. lia.
Qed.

Definition any {A} (a : A) : Prop := True.

(** The stores of [Avx2.store_rgb_16x] (avx2.rs:318-319) without those that only repeat others, and
    the functions around it: they make fewer writes, and no others. Not part of the code; made up
    for C62. *)
Definition store_rgb_once (dst : slice) (image : Z) (red green blue : reg) : M unit :=
  let '(a0, a1) := Avx2.pack_rgb_16x red green blue in
  if list_eq_dec Z.eq_dec (skipn 16 a1) (firstn 16 a0)
  then stn dst (image + 32) (skipn 16 a0) ;; stn dst image a1
  else stn dst (image + 16) a0 ;; stn dst image a1.
(** avx2.rs:786-901 with [store_rgb_once] *)
Definition nv12_to_rgb_once (c : colorimetry) : kernel_2_1 :=
  fun width height src_strides src dst_stride dst =>
  let '(y_stride, uv_stride) := src_strides in
  let '(ybuf, uvbuf) := src in
  for_ (height / 2) (fun y => for_ (width / Avx2.YUV_TO_RGB_WAVES) (fun x =>
    i <- wg_index x y Avx2.YUV_TO_RGB_WAVES uv_stride ;;
    '(cb, cr) <- Avx2.unpack_ui8x2_i16be_16x uvbuf i ;;
    Avx2.tile_32x2 store_rgb_once 48 c ybuf y_stride dst dst_stride x y cb cr)).
(** avx2.rs:1460-1569 with [nv12_to_rgb_once], for DEPTH = 3 *)
Definition avx2_nv12_rgb_once (c : colorimetry) : converter :=
  nv12_rgb_w 3 (hyb_2_1 (fun w => lower_multiple_of_pot w Avx2.YUV_TO_RGB_WAVES) 3 (nv12_to_rgb_once c) (nv12_to_rgb c)).
(** The converters of an instruction set (lib.rs:526-589) with this one instead. *)
Definition converters_once (set : instruction_set) (c : conv) : converter :=
  match set, c with
  | CpuInfo.Avx2, Yuv_rgb Nv12 cs Rgb => avx2_nv12_rgb_once (colorimetry_of cs)
  | _, _ => converters set c
  end.

Section Counts.
Variable T : target.
Hypothesis Hu : 2 ^ 32 <= usz T.

(** At most [n] writes, and a result in [P]. *)
Definition counts {A} (c : M A) (n : Z) (P : A -> Prop) : Prop := tally T c (fun k a => k <= n /\ P a).

Lemma counts_mono {A} (c : M A) n n' (P Q : A -> Prop) : counts c n P -> n <= n' -> (forall a, P a -> Q a) -> counts c n' Q.
Proof. intros H L I. eapply tally_mono; [|exact H]. intros k a [K Pa]. split; [lia|auto]. Qed.
Lemma counts_le {A} (c : M A) n n' P : counts c n P -> n <= n' -> counts c n' P.
Proof. intros H L. eapply counts_mono; eauto. Qed.
Lemma counts_then {A B} (c : M A) (k : A -> M B) n n' P Q : counts c n P -> (forall a, P a -> counts (k a) n' Q) -> counts (bind c k) (n + n') Q.
Proof.
  intros H K. unfold counts, bind. cbn [tally]. eapply tally_mono; [|exact H]. intros m a [L Pa].
  eapply tally_mono; [|exact (K a Pa)]. cbv beta. intros m' b [L' Qb]. split; [lia|exact Qb].
Qed.
Lemma counts_bind {A B} (c : M A) (k : A -> M B) n n' Q : counts c n any -> (forall a, counts (k a) n' Q) -> counts (bind c k) (n + n') Q.
Proof. intros H K. eapply counts_then; [exact H|auto]. Qed.
Lemma counts_ret {A} (a : A) (P : A -> Prop) : P a -> counts (ret a) 0 P.
Proof. intros H. split; [lia|exact H]. Qed.
Lemma counts_retn {A} (a : A) n : 0 <= n -> counts (ret a) n any.
Proof. intros H. split; [lia|exact I]. Qed.
Lemma counts_raise {A} f n (P : A -> Prop) : counts (raise f) n P.
Proof. exact I. Qed.
Lemma counts_ures r (P : Z -> Prop) : P (r mod usz T) -> counts (ures r) 0 P.
Proof. intros H. split; [lia|exact H]. Qed.
Lemma counts_ures_exact r : 0 <= r < 2 ^ 32 -> counts (ures r) 0 (eq r).
Proof. intros H. apply counts_ures. rewrite Z.mod_small; lia. Qed.
Lemma counts_ires r : counts (ires r) 0 any.
Proof. intros v. split; [lia|exact I]. Qed.
Lemma counts_ld s i : counts (ld s i) 0 any.
Proof. intros v. split; [lia|exact I]. Qed.
Lemma counts_st s i v : counts (st s i v) 1 any.
Proof. split; [lia|exact I]. Qed.
Lemma counts_ldn s n : forall i, counts (ldn s i n) 0 (fun l => length l = length (repeat 0 n)).
Proof.
  induction n as [|n IH]; intros i; cbn [ldn]; [apply counts_ret; reflexivity|].
  change 0 with (0 + (0 + 0)) at 1. eapply counts_bind; [apply counts_ld|intros b]. eapply counts_then; [apply IH|intros l L].
  apply counts_ret. cbn [length repeat] in *. congruence.
Qed.
Lemma counts_stn s l : forall i, counts (stn s i l) (zlen l) any.
Proof.
  induction l as [|b l IH]; intros i; cbn [stn]; [apply counts_ret; exact I|].
  replace (zlen (b :: l)) with (1 + zlen l) by (unfold zlen; cbn [length]; lia).
  apply counts_bind; [apply counts_st|intros _; apply IH].
Qed.
Lemma counts_stn_as s i l (l' : list Z) n : length l = length l' -> zlen l' = n -> counts (stn s i l) n any.
Proof. intros E <-. unfold zlen. rewrite <- E. apply counts_stn. Qed.
Lemma counts_stn_firstn s i n (l : list Z) : counts (stn s i (firstn n l)) (Z.of_nat n) any.
Proof. eapply counts_le; [apply counts_stn|]. unfold zlen. rewrite firstn_length. lia. Qed.
Lemma counts_stn_skipn s i k n (l : list Z) : counts (stn s i (skipn k (firstn n l))) (Z.of_nat (n - k)) any.
Proof. eapply counts_le; [apply counts_stn|]. unfold zlen. rewrite skipn_length, firstn_length. lia. Qed.
Lemma counts_store_once d o r g b : length r = length (repeat 0 32) -> length g = length (repeat 0 32) -> length b = length (repeat 0 32) ->
  counts (store_rgb_once d o r g b) 48 any.
Proof.
  intros Lr Lg Lb. unfold store_rgb_once.
  assert (X : exists a2, snd (Avx2.pack_rgb_16x r g b) = lo a2 ++ lo (fst (Avx2.pack_rgb_16x r g b))) by (unfold Avx2.pack_rgb_16x; cbn [fst snd]; cbv zeta; eexists; reflexivity).
  destruct (el_avx2_packrgb r (repeat 0 32) g (repeat 0 32) b (repeat 0 32) Lr Lg Lb) as [L0 L1].
  change (length (fst (Avx2.pack_rgb_16x (repeat 0 32) (repeat 0 32) (repeat 0 32)))) with 32%nat in L0.
  change (length (snd (Avx2.pack_rgb_16x (repeat 0 32) (repeat 0 32) (repeat 0 32)))) with 32%nat in L1.
  destruct (Avx2.pack_rgb_16x r g b) as [a0 a1]. cbn [fst snd] in *. destruct X as [a2 ->].
  destruct (list_eq_dec _ _ _) as [E|E].
  - eapply counts_le; [eapply counts_bind; [apply counts_stn|intros _; apply counts_stn]|]. unfold zlen. rewrite skipn_length. lia.
  - exfalso. apply E. rewrite app_length in L1. unfold lo in *. rewrite !firstn_length in L1. rewrite skipn_app, firstn_length.
    rewrite skipn_all2 by (rewrite firstn_length; lia). replace (16 - Nat.min 16 (length a2))%nat with 0%nat by lia. reflexivity.
Qed.
Lemma counts_in_order l : counts (in_order l) 0 (fun l' => length l' = length l).
Proof. unfold in_order. split; [lia|]. destruct (big T); rewrite ?rev_length; reflexivity. Qed.
Lemma counts_ld_word n s i : counts (ld_word n s i) 0 any.
Proof.
  unfold ld_word. change 0 with (0 + (0 + 0)) at 1. eapply counts_then; [apply counts_ldn|intros l _].
  eapply counts_then; [apply counts_in_order|intros l' _]. apply counts_ret. exact I.
Qed.
Lemma counts_st_word n s i v : counts (st_word n s i v) (Z.of_nat n) any.
Proof.
  unfold st_word. change (Z.of_nat n) with (0 + Z.of_nat n). eapply counts_then; [apply counts_in_order|intros l E].
  eapply counts_le; [apply counts_stn|]. unfold zlen. rewrite E.
  assert (L : forall n x, length (to_bytes n x) = n) by (clear; induction n; intros; cbn [to_bytes length]; auto).
  rewrite L. lia.
Qed.
Lemma counts_for_from n f k : 0 <= k -> (forall i, counts (f i) k any) -> forall i, counts (for_from n i f) (Z.of_nat n * k) any.
Proof.
  intros Hk H. induction n as [|n IH]; intros i; cbn [for_from]; [apply counts_retn; lia|].
  replace (Z.of_nat (S n) * k) with (k + Z.of_nat n * k) by lia. apply counts_bind; [apply H|intros _; apply IH].
Qed.
Lemma counts_for n f k : 0 <= n -> 0 <= k -> (forall i, counts (f i) k any) -> counts (for_ n f) (n * k) any.
Proof. intros Hn Hk H. unfold for_. rewrite <- (Z2Nat.id n) at 2 by exact Hn. apply counts_for_from; assumption. Qed.
Lemma counts_loop {S} n (f : S -> M S) k (P : Z -> S -> Prop) : 0 <= k ->
  (forall i s, 0 <= i < Z.of_nat n -> P i s -> counts (f s) k (P (i + 1))) ->
  forall s, P 0 s -> counts (loop n s f) (Z.of_nat n * k) (P (Z.of_nat n)).
Proof.
  intros Hk. revert P. induction n as [|n IH]; intros P H s Hs; cbn [loop].
  - apply counts_ret. exact Hs.
  - replace (Z.of_nat (Datatypes.S n) * k) with (k + Z.of_nat n * k) by lia. eapply counts_then; [apply (H 0 s); [lia|exact Hs]|].
    intros s' Hs'. eapply counts_mono; [apply (IH (fun i => P (i + 1)))|lia|].
    + intros i x Hi. apply H. lia.
    + exact Hs'.
    + intros x. replace (Z.of_nat n + 1) with (Z.of_nat (Datatypes.S n)) by lia. auto.
Qed.
Lemma counts_loop_any {S} n (f : S -> M S) k s : 0 <= k -> (forall s, counts (f s) k any) -> counts (loop n s f) (Z.of_nat n * k) any.
Proof. intros Hk H. apply (counts_loop n f k (fun _ => any)); auto. exact I. Qed.
Lemma counts_oob a b c d : counts (out_of_bounds a b c d) 0 any.
Proof.
  unfold out_of_bounds, counts. cbn [tally]. destruct (_ <? _); [apply counts_ret; exact I|]. destruct (_ =? _); [apply counts_ret; exact I|].
  destruct (_ <? _); [apply counts_ret; exact I|]. repeat split; lia.
Qed.

Lemma counts_pure {A B} (a : A) (k : A -> M B) n P : counts (k a) n P -> counts (bind (ret a) k) n P.
Proof.
  intros H. unfold counts, bind, ret. cbn [tally]. eapply tally_mono; [|exact H]. cbv beta. intros m b [L Pb]. split; [lia|exact Pb].
Qed.
Lemma counts_assoc {A B C} (a : M A) (b : A -> M B) (k : B -> M C) n P :
  counts (bind a (fun x => bind (b x) k)) n P -> counts (bind (bind a b) k) n P.
Proof.
  intros H. unfold counts, bind in *. cbn [tally] in *. eapply tally_mono; [|exact H]. cbv beta. intros m x K.
  eapply tally_mono; [|exact K]. cbv beta. intros m' y K'. eapply tally_mono; [|exact K']. cbv beta. intros m2 z [L Pz].
  split; [lia|exact Pz].
Qed.

(** An expression of the same length, without variables. *)
Ltac wit e :=
  match goal with
  | H : length ?x = length ?c |- _ =>
      match e with context [x] =>
        let F := eval pattern x in e in
        match F with ?G _ => let e' := eval cbv beta in (G c) in wit e' end
      end
  | _ => e
  end.
Ltac same_length := first [lazymatch goal with H : length ?x = length ?y |- length ?x = length ?y => exact H end|solve [lens']|eqlen].
Ltac short H :=
  lazymatch type of H with length ?x = length ?c => let n := eval lazy in (length c) in
    let E := fresh in assert (E : length c = length (repeat 0 n)) by (lazy; reflexivity); rewrite E in H; clear E end.
Ltac two L :=
  let H := fresh in pose proof L as H;
  match goal with |- counts (match ?f with _ => _ end) _ _ => destruct f as [? ?] end;
  let A := fresh in let B := fresh in destruct H as [A B]; cbn [fst snd] in A, B; short A; short B.
Ltac three L :=
  let H := fresh in pose proof L as H;
  match goal with |- counts (match ?f with _ => _ end) _ _ => destruct f as [[? ?] ?] end;
  let A := fresh in let B := fresh in let C := fresh in destruct H as [[A B] C]; cbn [fst snd] in A, B, C; short A; short B; short C.
Ltac count_step :=
  cbv beta zeta iota;
  lazymatch goal with
  | |- counts (bind (ldn _ _ _) _) _ _ => eapply counts_then; [apply counts_ldn|let L := fresh in intros ? L; cbv beta in L]
  | |- counts (bind (bind _ _) _) _ _ => eapply counts_assoc
  | |- counts (bind (ret _) _) _ _ => apply counts_pure
  | |- counts (bind (Sse2.unpack_ui8_i16be_8x _ _) _) _ _ => unfold Sse2.unpack_ui8_i16be_8x
  | |- counts (bind (Sse2.unpack_ui8x2_i16be_8x _ _) _) _ _ => unfold Sse2.unpack_ui8x2_i16be_8x
  | |- counts (bind (Sse2.load_lo_8x _ _) _) _ _ => unfold Sse2.load_lo_8x
  | |- counts (bind (Avx2.unpack_ui8_i16be_16x _ _) _) _ _ => unfold Avx2.unpack_ui8_i16be_16x
  | |- counts (bind (Avx2.unpack_ui8x2_i16be_16x _ _) _) _ _ => unfold Avx2.unpack_ui8x2_i16be_16x
  | |- counts (bind (Avx2.load_lo_16x _ _) _) _ _ => unfold Avx2.load_lo_16x
  | |- counts (bind (Neon.rgb_to_y_and_avg_uv_8x _ _ _ _ _ _ _ _) _) _ _ => unfold Neon.rgb_to_y_and_avg_uv_8x
  | |- counts (match Neon.rgb_to_uv_8x _ _ _ _ with _ => _ end) _ _ => unfold Neon.rgb_to_uv_8x, Neon.uv_weights
  | |- counts (bind (match Neon.load_rgb_8x _ _ with _ => _ end) _) _ _ => unfold Neon.load_rgb_8x
  | |- counts (bind _ _) _ _ => eapply counts_bind; [|intros ?]
  | |- counts (ret _) _ _ => apply counts_ret; exact I
  | |- counts (raise _) _ _ => exact I
  | |- counts (ures _) _ _ => apply counts_ures; exact I
  | |- counts (ires _) _ _ => apply counts_ires
  | |- counts (ld _ _) _ _ => apply counts_ld
  | |- counts (ld_u64 _ _) _ _ => apply counts_ld_word
  | |- counts (ld_u32 _ _) _ _ => apply counts_ld_word
  | |- counts (st_u64 _ _ _) _ _ => apply counts_st_word
  | |- counts (st_u32 _ _ _) _ _ => apply counts_st_word
  | |- counts (st _ _ _) _ _ => apply counts_st
  | |- counts (out_of_bounds _ _ _ _) _ _ => apply counts_oob
  | |- counts (store_rgb_once _ _ ?r ?g ?b) _ _ =>
      let r' := wit r in let g' := wit g in let b' := wit b in apply counts_store_once;
      [transitivity (length r'); [same_length|lazy; reflexivity]|transitivity (length g'); [same_length|lazy; reflexivity]|transitivity (length b'); [same_length|lazy; reflexivity]]
  | |- counts (stn _ _ (firstn _ _)) _ _ => apply counts_stn_firstn
  | |- counts (stn _ _ (skipn _ (firstn _ _))) _ _ => apply counts_stn_skipn
  | |- counts (stn _ _ ?e) _ _ =>
      let e' := wit e in let n := eval lazy in (zlen e') in apply (counts_stn_as _ _ e e' n); [same_length|reflexivity]
  | |- counts (match Sse2.unpack_ui8x3_i16x2_4x ?s ?l with _ => _ end) _ _ =>
      let l' := wit l in two (el_sse2_unpack3 s l l' ltac:(same_length))
  | |- counts (match Avx2.unpack_ui8x3_i16x2_8x ?s ?l with _ => _ end) _ _ =>
      let l' := wit l in two (el_avx2_unpack3 s l l' ltac:(same_length))
  | |- counts (match Sse2.i16_to_i16x2_8x ?l with _ => _ end) _ _ =>
      let l' := wit l in two (el_sse2_double l l' ltac:(same_length))
  | |- counts (match Avx2.i16_to_i16x2_16x ?l with _ => _ end) _ _ =>
      let l' := wit l in two (el_avx2_double l l' ltac:(same_length))
  | |- counts (match Sse2.pack_i16x3_8x ?v ?r ?g ?b with _ => _ end) _ _ =>
      let r' := wit r in let g' := wit g in let b' := wit b in
      two (el_sse2_pack3 v r r' g g' b b' ltac:(same_length) ltac:(same_length) ltac:(same_length))
  | |- counts (match Avx2.pack_i16x3_16x ?v ?r ?g ?b with _ => _ end) _ _ =>
      let r' := wit r in let g' := wit g in let b' := wit b in
      two (el_avx2_pack3 v r r' g g' b b' ltac:(same_length) ltac:(same_length) ltac:(same_length))
  | |- counts (match Sse2.chroma_8x ?c ?l ?r with _ => _ end) _ _ =>
      let l' := wit l in let r' := wit r in three (el_sse2_chroma c l l' r r' ltac:(same_length) ltac:(same_length))
  | |- counts (match Avx2.chroma_16x ?c ?l ?r with _ => _ end) _ _ =>
      let l' := wit l in let r' := wit r in three (el_avx2_chroma c l l' r r' ltac:(same_length) ltac:(same_length))
  | |- counts (match bgr_to_rgb_words ?a ?b ?c with _ => _ end) _ _ => destruct (bgr_to_rgb_words a b c) as [[? ?] ?]
  | |- counts (match ?f with _ => _ end) _ _ => first [is_var f; destruct f | let k := head f in unfold k]
  | |- counts ?c _ _ => let f := head c in unfold f
  end.
Ltac count := eapply counts_le; [solve [repeat count_step]|cbn; lia].

(** ** The kernels *)
Lemma counts_for2 a b f k n : 0 <= a -> 0 <= b -> 0 <= k -> (forall y x, counts (f y x) k any) -> a * (b * k) <= n ->
  counts (for_ a (fun y => for_ b (fun x => f y x))) n any.
Proof.
  intros Ha Hb Hk H L. eapply counts_le; [|exact L]. apply counts_for; [exact Ha|lia|]. intros y. apply counts_for; auto.
Qed.

Definition cost_1_2 (P : Z -> Prop) (k : kernel_1_2) := forall w h ss s ds d, P w -> 0 < w < 2 ^ 32 -> 0 <= h -> counts (k w h ss s ds d) (h / 2 * (3 * w)) any.
Definition cost_1_3 (P : Z -> Prop) (sub : Z) (k : kernel_1_3) := forall w h ss s ds d, P w -> 0 < w < 2 ^ 32 -> 0 <= h -> counts (k w h ss s ds d) (h / sub * (3 * w)) any.
Definition cost_2_1 (P : Z -> Prop) (dd : Z) (k : kernel_2_1) := forall w h ss s ds d, P w -> 0 < w < 2 ^ 32 -> 0 <= h -> counts (k w h ss s ds d) (h * (dd * w)) any.
Definition cost_3_1 (P : Z -> Prop) (dd : Z) (k : kernel_3_1) := forall w h ss s ds d, P w -> 0 < w < 2 ^ 32 -> 0 <= h -> counts (k w h ss s ds d) (h * (dd * w)) any.
Definition cost_1_1 (P : Z -> Prop) (dd : Z) (k : kernel_1_1) := forall w h ss s ds d, P w -> 0 < w < 2 ^ 32 -> 0 <= h -> counts (k w h ss s ds d) (h * (dd * w)) any.

Lemma counts_zero {A B} (c : M A) (k : A -> M B) n Q : counts c 0 any -> (forall a, counts (k a) n Q) -> counts (bind c k) n Q.
Proof. intros H K. eapply counts_le; [eapply counts_bind; eassumption|lia]. Qed.
Lemma counts_last {A B} (c : M A) (b : B) n : counts c n any -> counts (bind c (fun _ => ret b)) n any.
Proof. intros H. eapply counts_le; [eapply counts_bind; [exact H|intros ?; apply counts_ret; exact I]|lia]. Qed.
Lemma same_rows a x y : 0 <= a -> x <= y -> a * x <= a * y.
Proof. intros. apply Z.mul_le_mono_nonneg_l; assumption. Qed.
Lemma half_rows h x y : 0 <= h -> 0 <= y -> x <= 2 * y -> h / 2 * x <= h * y.
Proof. intros H Y L. transitivity (h / 2 * (2 * y)); [apply same_rows; lia|]. replace (h / 2 * (2 * y)) with ((2 * (h / 2)) * y) by ring. apply Z.mul_le_mono_nonneg_r; lia. Qed.

Ltac zeros := repeat (apply counts_zero; [count|intros ?]).
Ltac consts :=
  change Sse2.RGB_TO_YUV_WAVES with 4; change Sse2.YUV_TO_RGB_WAVES with 16; change Avx2.RGB_TO_YUV_WAVES with 8;
  change Avx2.YUV_TO_RGB_WAVES with 32; change Neon.RGB_TO_YUV_WAVES with 8; change (16 / 2) with 8; change (32 / 2) with 16.
Ltac grid n :=
  apply (counts_for2 _ _ _ n); [lia|consts; lia|lia|intros ? ?|
    consts;
    first [apply same_rows; lia|apply half_rows; lia|rewrite Z.div_1_r; apply same_rows; lia]].

Lemma cost_rgb_nv12 smp dp c : cost_1_2 any (rgb_to_nv12 smp dp c).
Proof. intros w h ss s [ys us] [yb ub] _ W H. unfold rgb_to_nv12. zeros. grid 6. destruct smp; count. Qed.
Lemma cost_rgb_i420 smp dp c : cost_1_3 any 2 (rgb_to_i420 smp dp c).
Proof. intros w h ss s [[ys us] vs] [[yb ub] vb] _ W H. unfold rgb_to_i420. zeros. grid 6. destruct smp; count. Qed.
Lemma cost_rgb_i444 smp dp c : cost_1_3 any 1 (rgb_to_i444 smp dp c).
Proof. intros w h ss s [[ys us] vs] [[yb ub] vb] _ W H. unfold rgb_to_i444. zeros. grid 3. destruct smp; count. Qed.
Lemma cost_nv12_bgra c r : cost_2_1 any 4 (nv12_to_bgra c r).
Proof. intros w h [ys us] [yb ub] ds d _ W H. unfold nv12_to_bgra. grid 16. destruct r; count. Qed.
Lemma cost_nv12_rgb c : cost_2_1 any 3 (nv12_to_rgb c).
Proof. intros w h [ys us] [yb ub] ds d _ W H. unfold nv12_to_rgb. grid 12. count. Qed.
Lemma cost_i420_bgra c r : cost_3_1 any 4 (i420_to_bgra c r).
Proof. intros w h [[ys us] vs] [[yb ub] vb] ds d _ W H. unfold i420_to_bgra. grid 16. destruct r; count. Qed.
Lemma cost_i444_bgra c r : cost_3_1 any 4 (i444_to_bgra c r).
Proof. intros w h [[ys us] vs] [[yb ub] vb] ds d _ W H. unfold i444_to_bgra. grid 4. destruct r; count. Qed.

Lemma cost_sse2_nv12 smp dp c : cost_1_2 any (Sse2.rgb_to_nv12_sse2 smp dp c).
Proof. intros w h ss s [ys us] [yb ub] _ W H. unfold Sse2.rgb_to_nv12_sse2. cbv zeta. grid 12. destruct smp; count. Qed.
Lemma cost_sse2_i420 smp dp c : cost_1_3 any 2 (Sse2.rgb_to_i420_sse2 smp dp c).
Proof. intros w h ss s [[ys us] vs] [[yb ub] vb] _ W H. unfold Sse2.rgb_to_i420_sse2. cbv zeta. grid 12. destruct smp; count. Qed.
Lemma cost_sse2_i444 smp dp c : cost_1_3 any 1 (Sse2.rgb_to_i444_sse2 smp dp c).
Proof. intros w h ss s [[ys us] vs] [[yb ub] vb] _ W H. unfold Sse2.rgb_to_i444_sse2. cbv zeta. grid 12. destruct smp; count. Qed.
Lemma cost_sse2_nv12_bgra c r : cost_2_1 any 4 (Sse2.nv12_to_bgra_sse2 c r).
Proof. intros w h [ys us] [yb ub] ds d _ W H. unfold Sse2.nv12_to_bgra_sse2. grid 128. destruct r; count. Qed.
Lemma cost_sse2_i420_bgra c r : cost_3_1 any 4 (Sse2.i420_to_bgra_sse2 c r).
Proof. intros w h [[ys us] vs] [[yb ub] vb] ds d _ W H. unfold Sse2.i420_to_bgra_sse2. grid 128. destruct r; count. Qed.
Lemma cost_sse2_i444_bgra c r : cost_3_1 any 4 (Sse2.i444_to_bgra_sse2 c r).
Proof. intros w h [[ys us] vs] [[yb ub] vb] ds d _ W H. unfold Sse2.i444_to_bgra_sse2. cbv zeta. grid 32. destruct r; count. Qed.
Lemma cost_avx2_nv12 smp dp c : cost_1_2 any (Avx2.rgb_to_nv12_avx2 smp dp c).
Proof. intros w h ss s [ys us] [yb ub] _ W H. unfold Avx2.rgb_to_nv12_avx2. cbv zeta. grid 24. destruct smp; count. Qed.
Lemma cost_avx2_i420 smp dp c : cost_1_3 any 2 (Avx2.rgb_to_i420_avx2 smp dp c).
Proof. intros w h ss s [[ys us] vs] [[yb ub] vb] _ W H. unfold Avx2.rgb_to_i420_avx2. cbv zeta. grid 24. destruct smp; count. Qed.
Lemma cost_avx2_i444 smp dp c : cost_1_3 any 1 (Avx2.rgb_to_i444_avx2 smp dp c).
Proof. intros w h ss s [[ys us] vs] [[yb ub] vb] _ W H. unfold Avx2.rgb_to_i444_avx2. cbv zeta. grid 24. destruct smp; count. Qed.
Lemma cost_avx2_nv12_bgra c r : cost_2_1 any 4 (Avx2.nv12_to_bgra_avx2 c r).
Proof. intros w h [ys us] [yb ub] ds d _ W H. unfold Avx2.nv12_to_bgra_avx2. grid 256. destruct r; count. Qed.
Lemma cost_nv12_rgb_once c : cost_2_1 any 3 (nv12_to_rgb_once c).
Proof. intros w h [ys us] [yb ub] ds d _ W H. unfold nv12_to_rgb_once. grid 192. count. Qed.
Lemma cost_avx2_i420_bgra c r : cost_3_1 any 4 (Avx2.i420_to_bgra_avx2 c r).
Proof. intros w h [[ys us] vs] [[yb ub] vb] ds d _ W H. unfold Avx2.i420_to_bgra_avx2. grid 256. destruct r; count. Qed.
Lemma cost_avx2_i444_bgra c r : cost_3_1 any 4 (Avx2.i444_to_bgra_avx2 c r).
Proof. intros w h [[ys us] vs] [[yb ub] vb] ds d _ W H. unfold Avx2.i444_to_bgra_avx2. cbv zeta. grid 64. destruct r; count. Qed.
Lemma cost_neon_nv12 smp dp c : cost_1_2 any (Neon.rgb_to_nv12_neon smp dp c).
Proof. intros w h ss s [ys us] [yb ub] _ W H. unfold Neon.rgb_to_nv12_neon. cbv zeta. grid 24. destruct smp; count. Qed.
Lemma cost_neon_i420 smp dp c : cost_1_3 any 2 (Neon.rgb_to_i420_neon smp dp c).
Proof. intros w h ss s [[ys us] vs] [[yb ub] vb] _ W H. unfold Neon.rgb_to_i420_neon. cbv zeta. grid 24. destruct smp; count. Qed.
Lemma cost_neon_i444 smp dp c : cost_1_3 any 1 (Neon.rgb_to_i444_neon smp dp c).
Proof. intros w h ss s [[ys us] vs] [[yb ub] vb] _ W H. unfold Neon.rgb_to_i444_neon. cbv zeta. grid 24. destruct smp; count. Qed.

(** ** Re-orderings *)
Lemma lower_pot k w : 0 <= k -> 0 <= w -> lower_multiple_of_pot w (2 ^ k) = 2 ^ k * (w / 2 ^ k).
Proof.
  intros Hk Hw. unfold lower_multiple_of_pot. replace (2 ^ k - 1) with (Z.ones k) by (rewrite Z.ones_equiv; lia).
  rewrite Z.land_ones by lia. pose proof (Z.div_mod w (2 ^ k) ltac:(pose proof (Z.pow_pos_nonneg 2 k); lia)). lia.
Qed.
Lemma lower_8 w : 0 <= w -> lower_multiple_of_pot w 8 = 8 * (w / 8).
Proof. apply (lower_pot 3). lia. Qed.
Lemma lower_16 w : 0 <= w -> lower_multiple_of_pot w 16 = 16 * (w / 16).
Proof. apply (lower_pot 4). lia. Qed.
Lemma lower_32 w : 0 <= w -> lower_multiple_of_pot w 32 = 32 * (w / 32).
Proof. apply (lower_pot 5). lia. Qed.

(** A step that carries a position [x], moved by [dx], and two offsets. *)
Definition carries (dx k : Z) (f : Z * Z * Z -> M (Z * Z * Z)) :=
  forall x so do_, 0 <= x -> x + dx < 2 ^ 32 -> counts (f (x, so, do_)) k (fun s => fst (fst s) = x + dx).
Lemma carries_loop dx k f n x0 so do_ : carries dx k f -> 0 <= k -> 0 <= dx -> 0 <= x0 -> x0 + Z.of_nat n * dx < 2 ^ 32 ->
  counts (loop n (x0, so, do_) f) (Z.of_nat n * k) (fun s => fst (fst s) = x0 + Z.of_nat n * dx).
Proof.
  intros C Hk Hd Hx Hn. apply (counts_loop n f k (fun i s => fst (fst s) = x0 + i * dx)); [exact Hk| |cbn [fst]; lia].
  intros i [[x so'] do'] Hi E. cbn [fst] in E. subst x. eapply counts_mono; [apply C; nia|lia|]. cbv beta. intros s ->. lia.
Qed.
Lemma counts_uadd_exact a b : 0 <= a -> 0 <= b -> a + b < 2 ^ 32 -> counts (uadd a b) 0 (eq (a + b)).
Proof. intros. apply counts_ures_exact. lia. Qed.

Ltac carried :=
  repeat lazymatch goal with
  | |- counts (bind (uadd ?x ?n) ?k) _ (fun s => fst (fst s) = ?x + ?n) => eapply counts_then; [apply (counts_uadd_exact x n); lia|intros ? <-]
  | |- counts (ret _) _ _ => apply counts_ret; reflexivity
  | |- counts (match bgr_to_rgb_words ?a ?b ?c with _ => _ end) _ _ => destruct (bgr_to_rgb_words a b c) as [[? ?] ?]
  | |- counts (bind (ldn _ _ _) _) _ _ => eapply counts_then; [apply counts_ldn|let L := fresh in intros ? L; cbv beta in L]
  | |- counts (bind _ _) _ _ => eapply counts_bind; [solve [repeat count_step]|intros ?]
  | |- counts (let _ := _ in _) _ _ => cbv zeta
  | |- counts (match Avx2.bgra_to_rgb_32x _ _ _ _ with _ => _ end) _ _ => unfold Avx2.bgra_to_rgb_32x; cbv beta zeta iota
  end.
Lemma carries_bgr src dst : carries 8 24 (bgr_to_rgb_step8 src dst).
Proof. intros x so do_ X U. unfold bgr_to_rgb_step8. eapply counts_le; [carried|cbn; lia]. Qed.
Lemma carries_swap sd dd src dst : carries 1 3 (swap_copy_step1 sd dd src dst).
Proof. intros x so do_ X U. unfold swap_copy_step1. eapply counts_le; [carried|cbn; lia]. Qed.
Lemma carries_bgra src dst : carries 8 24 (bgra_to_rgb_step8 src dst).
Proof. intros x so do_ X U. unfold bgra_to_rgb_step8. eapply counts_le; [carried|cbn; lia]. Qed.
Lemma carries_rgb8 src dst : carries 8 32 (rgb_to_bgra_step8 src dst).
Proof. intros x so do_ X U. unfold rgb_to_bgra_step8. eapply counts_le; [carried|cbn; lia]. Qed.
Lemma carries_rgb1 src dst : carries 1 4 (rgb_to_bgra_step1 src dst).
Proof. intros x so do_ X U. unfold rgb_to_bgra_step1. eapply counts_le; [carried|cbn; lia]. Qed.

(** Eight pixels at a time, then one at a time *)
Lemma eights w so do_ f g d : 0 < w < 2 ^ 32 -> 0 <= d -> carries 8 (8 * d) f -> carries 1 d g ->
  counts (s1 <- loop (Z.to_nat ((lower_multiple_of_pot w 8 + 7) / 8)) (0, so, do_) f ;;
          loop (Z.to_nat (w - fst (fst s1))) s1 g ;; ret tt) (d * w) any.
Proof.
  intros W D F G. rewrite lower_8 by lia.
  eapply counts_le; [eapply counts_then; [apply (carries_loop 8 (8 * d) f _ 0 so do_ F); lia|intros [[x so'] do'] E; cbn [fst] in *; subst x; eapply counts_then with (P := any)]|].
  - eapply counts_mono; [apply (carries_loop 1 d g _ _ so' do' G); lia|apply Z.le_refl|intros; exact I].
  - intros a _. apply counts_ret. exact I.
  - rewrite !Z2Nat.id by lia.
    replace ((8 * (w / 8) + 7) / 8) with (w / 8) by lia. nia.
Qed.
Lemma cost_bgr_rgb : cost_1_1 any 3 bgr_to_rgb.
Proof.
  intros w h ss s ds d _ W H. unfold bgr_to_rgb. cbv zeta. apply counts_for; [exact H|lia|]. intros i. zeros.
  apply eights; [exact W|lia|apply carries_bgr|apply carries_swap].
Qed.
Lemma cost_bgra_rgb : cost_1_1 any 3 bgra_to_rgb.
Proof.
  intros w h ss s ds d _ W H. unfold bgra_to_rgb. zeros. cbv zeta. apply counts_for; [exact H|lia|]. intros i. zeros.
  apply eights; [exact W|lia|apply carries_bgra|apply carries_swap].
Qed.
Lemma counts_last_pixel s d w x so do_ : counts (rgb_to_bgra_last s d w (x, so, do_)) (if x <? w then 4 else 0) any.
Proof. unfold rgb_to_bgra_last. destruct (x <? w); count. Qed.
Lemma cost_rgb_line w h sdiff ddiff s d st_ : 0 < w < 2 ^ 32 -> counts (rgb_to_bgra_line w h sdiff ddiff s d st_) (4 * w) any.
Proof.
  intros W. destruct st_ as [[y so] do_]. unfold rgb_to_bgra_line. zeros. cbv zeta.
  eapply counts_le; [eapply counts_then with (P := fun v => 0 <= v <= w) (n := 0)|].
  - destruct (_ || _); [|apply counts_ret; lia]. eapply counts_mono; [apply counts_ures_exact; lia|lia|]. cbv beta. lia.
  - intros single S. eapply counts_then with (P := fun v => 0 <= v <= w /\ v mod 8 = 0) (n := 0).
    + destruct (_ || _); [|apply counts_ret; lia]. eapply counts_le; [eapply counts_then; [apply counts_ures_exact; lia|]|].
      * intros wm <-. apply counts_ret. lia.
      * lia.
    + intros multi [M1 M2].
      assert (M3 : (multi + 7) / 8 = multi / 8) by lia. rewrite M3.
      eapply counts_le; [eapply counts_then; [apply (carries_loop 8 32 _ _ 0 so do_ (carries_rgb8 s d)); lia|intros [[x so'] do'] E; cbn [fst] in *]|].
      * assert (x = multi) as -> by lia. clear E.
        eapply counts_le; [eapply counts_then; [apply (carries_loop 1 4 _ _ _ so' do' (carries_rgb1 s d)); lia|intros [[x so''] do''] E; cbn [fst] in *; subst x]|].
        -- eapply counts_bind; [apply counts_last_pixel|intros [? ?]; repeat count_step].
        -- apply Z.le_refl.
      * instantiate (1 := 4 * w). rewrite Z2Nat.id by lia.
        destruct (multi <=? single) eqn:L.
        -- rewrite Z2Nat.id by lia. destruct (_ <? _) eqn:?; lia.
        -- replace (Z.to_nat (single - multi)) with 0%nat by lia. destruct (_ <? _) eqn:?; lia.
  - lia.
Qed.
Lemma cost_rgb_bgra : cost_1_1 any 4 rgb_to_bgra.
Proof.
  intros w h ss s ds d _ W H. unfold rgb_to_bgra. zeros. apply counts_last.
  eapply counts_le; [apply counts_loop_any with (k := 4 * w); [lia|intros s'; apply cost_rgb_line; exact W]|]. lia.
Qed.

(** Vector registers *)
Lemma strips n k d w f s : 0 < n -> 0 <= k -> 0 < w -> w mod n = 0 -> k = n * d -> (forall s, counts (f s) k any) ->
  counts (loop (Z.to_nat ((w + (n - 1)) / n)) (s : Z * Z) f) (d * w) any.
Proof.
  intros N K W M -> F. eapply counts_le; [apply counts_loop_any with (k := n * d); [exact K|exact F]|].
  assert (E : w = n * (w / n)) by (pose proof (Z.div_mod w n); lia).
  assert (E' : (w + (n - 1)) / n = w / n).
  { rewrite E at 1. replace (n * (w / n) + (n - 1)) with ((n - 1) + (w / n) * n) by lia. rewrite Z.div_add by lia. rewrite Z.div_small by lia. lia. }
  rewrite E', Z2Nat.id by (apply Z.div_pos; lia). rewrite E at 2. nia.
Qed.
Lemma step_sse2_rgb s d st_ : counts (Sse2.rgb_to_bgra_step16 s d st_) 64 any.
Proof. destruct st_. count. Qed.
Lemma step_avx2_rgb s d st_ : counts (Avx2.rgb_to_bgra_step32 s d st_) 128 any.
Proof. destruct st_. count. Qed.
Lemma step_avx2_bgr s d st_ : counts (Avx2.bgr_to_rgb_step32 s d st_) 96 any.
Proof. destruct st_. count. Qed.
Lemma cost_sse2_rgb_bgra : cost_1_1 (fun w => w mod 16 = 0) 4 Sse2.rgb_to_bgra_sse2.
Proof.
  intros w h ss s ds d P W H. unfold Sse2.rgb_to_bgra_sse2. zeros. apply counts_last.
  eapply counts_le; [apply counts_loop_any with (k := 4 * w); [lia|]|lia].
  intros st_. eapply counts_le; [eapply counts_bind; [apply (strips 16 64 4 w); try lia; apply step_sse2_rgb|intros [? ?]; repeat count_step]|lia].
Qed.
Lemma cost_avx2_rgb_bgra : cost_1_1 (fun w => w mod 32 = 0) 4 Avx2.rgb_to_bgra_avx2.
Proof.
  intros w h ss s ds d P W H. unfold Avx2.rgb_to_bgra_avx2. zeros. apply counts_last.
  eapply counts_le; [apply counts_loop_any with (k := 4 * w); [lia|]|lia].
  intros st_. eapply counts_le; [eapply counts_bind; [apply (strips 32 128 4 w); try lia; apply step_avx2_rgb|intros [? ?]; repeat count_step]|lia].
Qed.
Lemma cost_avx2_bgr_rgb : cost_1_1 (fun w => w mod 32 = 0) 3 Avx2.bgr_to_rgb_avx2.
Proof.
  intros w h ss s ds d P W H. unfold Avx2.bgr_to_rgb_avx2. apply counts_for; [exact H|lia|]. intros i. zeros. apply counts_last.
  apply (strips 32 96 3 w); try lia; apply step_avx2_bgr.
Qed.

Lemma carries_avx2_32 src dst : carries 32 96 (Avx2.bgra_to_rgb_step32 src dst).
Proof.
  intros x so do_ X U. unfold Avx2.bgra_to_rgb_step32.
  change Avx2.LANE_COUNT with 32. eapply counts_le; [carried|cbn; lia].
Qed.
Lemma carries_avx2_8 src dst : carries 8 24 (Avx2.bgra_to_rgb_step8_avx2 src dst).
Proof.
  intros x so do_ X U. unfold Avx2.bgra_to_rgb_step8_avx2. cbv zeta. eapply counts_le; [carried|cbn; lia].
Qed.
Lemma step_avx2_rest s d so do_ y : counts (Avx2.bgra_to_rgb_rest1 s d so do_ y) 3 any.
Proof. count. Qed.
Lemma cost_avx2_bgra_rgb : cost_1_1 any 3 Avx2.bgra_to_rgb_avx2.
Proof.
  intros w h ss s ds d _ W H. unfold Avx2.bgra_to_rgb_avx2. zeros. cbv zeta. change Avx2.LANE_COUNT with 32.
  rewrite lower_32, lower_8 by lia.
  eapply counts_le; [eapply counts_then with (P := any) (n := h * (3 * (8 * (w / 8))))|].
  - apply counts_for; [exact H|lia|]. intros i. zeros.
    assert (M3 : (32 * (w / 32) + 31) / 32 = w / 32) by lia. rewrite M3.
    eapply counts_le; [eapply counts_then; [apply (carries_loop 32 96 _ _ 0 _ _ (carries_avx2_32 s d)); lia|intros [[x so'] do'] E; cbn [fst] in *]|].
    + assert (x = 32 * (w / 32)) as -> by lia. clear E. apply counts_last. eapply counts_mono; [|apply Z.le_refl|intros; exact I].
      apply (carries_loop 8 24 _ _ _ so' do' (carries_avx2_8 s d)); lia.
    + assert (M4 : (8 * (w / 8) - 32 * (w / 32) + 7) / 8 = w / 8 - 4 * (w / 32)) by lia. rewrite M4. rewrite !Z2Nat.id by lia. lia.
  - intros _ _. destruct (8 * (w / 8) =? w) eqn:E; [apply counts_retn with (n := h * (3 * (w - 8 * (w / 8)))); nia|]. apply counts_last.
    eapply counts_le; [apply counts_loop_any with (k := 3 * (w - 8 * (w / 8))); [lia|]|rewrite Z2Nat.id by lia; apply Z.le_refl].
    intros [so do_]. eapply counts_le; [eapply counts_then with (P := any)|].
    + apply counts_for_from with (k := 3); [lia|]. intros y. apply step_avx2_rest.
    + intros _ _. repeat count_step.
    + rewrite Z2Nat.id by lia. lia.
  - nia.
Qed.
Lemma step_neon m out s d st_ k : (forall x, length (Neon.interleave 16 (out x)) = k) -> counts (Neon.reorder_step16 m out s d st_) (Z.of_nat k) any.
Proof.
  intros K. destruct st_ as [so do_]. unfold Neon.reorder_step16. cbv zeta. eapply counts_le; [eapply counts_bind; [eapply counts_mono; [apply counts_ldn|apply Z.le_refl|intros; exact I]|intros x]|].
  - eapply counts_bind with (n := Z.of_nat k); [eapply counts_le; [apply counts_stn|unfold zlen; rewrite K; lia]|intros _]. repeat count_step.
  - lia.
Qed.
Lemma cost_neon_reorder m out dd : (forall x, length (Neon.interleave 16 (out x)) = Z.to_nat (16 * dd)) -> 0 <= dd ->
  cost_1_1 (fun w => w mod 16 = 0) dd (Neon.reorder_neon m out).
Proof.
  intros K D w h ss s ds d P W H. unfold Neon.reorder_neon. apply counts_for; [exact H|lia|]. intros i. zeros. apply counts_last.
  apply (strips 16 (16 * dd) dd w); try lia. intros st_. eapply counts_le; [apply step_neon; exact K|lia].
Qed.

(** ** Vector part and scalar part *)
Definition divides_width (vp : Z -> Z) (P : Z -> Prop) := forall w, 0 < w -> 0 <= vp w <= w /\ P (vp w).
Lemma counts_from s i : counts (slice_from s i) 0 any.
Proof. unfold slice_from. destruct (_ && _); [apply counts_ret; exact I|exact I]. Qed.
Ltac hybrid V K :=
  match goal with D : divides_width ?vp ?P |- counts (bind (if 0 <? ?vp ?w then _ else _) _) _ _ =>
    let L := fresh in destruct (D w ltac:(lia)) as [L ?] end;
  match goal with D : divides_width ?vp ?P |- counts (bind (if 0 <? ?vp ?w then _ else _) _) (?a * (?b * ?w)) _ =>
    apply (counts_le _ (a * (b * vp w) + a * (b * (w - vp w)))); [|lia];
    apply (counts_bind _ _ (a * (b * vp w)) (a * (b * (w - vp w))));
    [destruct (_ <? _) eqn:?; [apply V; [assumption|lia|lia]|apply counts_retn; nia]|intros _; destruct (_ <? _) eqn:?; [|apply counts_retn; nia]] end;
  repeat lazymatch goal with
  | |- counts (bind (umul _ _) _) _ _ => apply counts_zero; [count|intros ?]
  | |- counts (bind (slice_from _ _) _) _ _ => apply counts_zero; [apply counts_from|intros ?]
  end; apply K; [exact I|lia|lia].
Lemma cost_hyb_1_2 vp P dp kv ks : divides_width vp P -> cost_1_2 P kv -> cost_1_2 any ks -> cost_1_2 any (hyb_1_2 vp dp kv ks).
Proof. intros D V K w h ss s ds d _ W H. unfold hyb_1_2. cbv zeta. hybrid V K. Qed.
Lemma cost_hyb_1_3 vp P sub sub' dp kv ks : 0 < sub -> divides_width vp P -> cost_1_3 P sub kv -> cost_1_3 any sub ks -> cost_1_3 any sub (hyb_1_3 vp sub' dp kv ks).
Proof. intros Hs D V K w h ss s ds [[d0 d1] d2] _ W H. assert (0 <= h / sub) by (apply Z.div_pos; lia). unfold hyb_1_3. cbv zeta. hybrid V K. Qed.
Lemma cost_hyb_2_1 vp P dp dd kv ks : 0 <= dd -> divides_width vp P -> cost_2_1 P dd kv -> cost_2_1 any dd ks -> cost_2_1 any dd (hyb_2_1 vp dp kv ks).
Proof. intros Hd D V K w h ss s ds d _ W H. unfold hyb_2_1. cbv zeta. hybrid V K. Qed.
Lemma cost_hyb_3_1 vp P sub dp dd kv ks : 0 <= dd -> divides_width vp P -> cost_3_1 P dd kv -> cost_3_1 any dd ks -> cost_3_1 any dd (hyb_3_1 vp sub dp kv ks).
Proof. intros Hd D V K w h ss [[s0 s1] s2] ds d _ W H. unfold hyb_3_1. cbv zeta. hybrid V K. Qed.
Lemma cost_hyb_1_1 vp P sd dd' dd kv ks : 0 <= dd -> divides_width vp P -> cost_1_1 P dd kv -> cost_1_1 any dd ks -> cost_1_1 any dd (hyb_1_1 vp sd dd' kv ks).
Proof. intros Hd D V K w h ss s ds d _ W H. unfold hyb_1_1. cbv zeta. hybrid V K. Qed.

(** ** The wrappers *)
Lemma counts_aidx {A} (a : arr A) i : counts (aidx a i) 0 any.
Proof. unfold aidx. destruct (_ && _); [|exact I]. destruct (nth_error _ _); [apply counts_ret; exact I|exact I]. Qed.
Lemma counts_split s i : counts (split_at s i) 0 any.
Proof. unfold split_at. destruct (_ && _); [apply counts_ret; exact I|exact I]. Qed.
Lemma counts_orM a b : counts a 0 any -> counts b 0 any -> counts (orM a b) 0 any.
Proof. intros A B. unfold orM. apply counts_zero; [exact A|]. intros []; [apply counts_ret; exact I|exact B]. Qed.
Lemma counts_oob_call a b c d : counts (oob_call a b c d) 0 any.
Proof. unfold oob_call. apply counts_zero; [apply counts_ures; exact I|intros ?; apply counts_oob]. Qed.
Ltac wrap N :=
  repeat lazymatch goal with
  | |- counts (if ?b then _ else _) _ _ => destruct b eqn:?
  | |- counts (ret _) _ _ => apply counts_retn; exact N
  | |- counts (bind (umul _ _) _) _ _ => apply counts_zero; [count|intros ?]
  | |- counts (bind (aidx _ _) _) _ _ => apply counts_zero; [apply counts_aidx|intros ?]
  | |- counts (bind (split_at _ _) _) _ _ => apply counts_zero; [apply counts_split|intros ?]
  | |- counts (bind (orM _ _) _) _ _ => apply counts_zero; [repeat apply counts_orM; apply counts_oob_call|intros ?]
  end.
Lemma cost_rgb_rgb_w sd dd k w h l ss sb l' ds db : cost_1_1 any dd k -> 0 <= dd -> 0 <= w < 2 ^ 32 -> 0 <= h ->
  counts (rgb_rgb_w sd dd k w h l ss sb l' ds db) (h * (dd * w)) any.
Proof.
  intros K D W H. assert (N : 0 <= h * (dd * w)) by nia. unfold rgb_rgb_w. cbv zeta. wrap N. apply counts_last, K; [exact I|lia|lia].
Qed.
Lemma cost_rgb_i4xx_w sub dp k w h l ss sb l' ds db : cost_1_3 any sub k -> 0 < sub -> 0 <= w < 2 ^ 32 -> 0 <= h ->
  counts (rgb_i4xx_w sub dp k w h l ss sb l' ds db) (h / sub * (3 * w)) any.
Proof.
  intros K D W H. assert (0 <= h / sub) by (apply Z.div_pos; lia). assert (N : 0 <= h / sub * (3 * w)) by nia. unfold rgb_i4xx_w. cbv zeta. wrap N. apply counts_last, K; [exact I|lia|lia].
Qed.
Lemma cost_i4xx_rgb_w sub dp k w h l ss sb l' ds db : cost_3_1 any dp k -> 0 <= dp -> 0 <= w < 2 ^ 32 -> 0 <= h ->
  counts (i4xx_rgb_w sub dp k w h l ss sb l' ds db) (h * (dp * w)) any.
Proof.
  intros K D W H. assert (N : 0 <= h * (dp * w)) by nia. unfold i4xx_rgb_w. cbv zeta. wrap N. apply counts_last, K; [exact I|lia|lia].
Qed.
Lemma cost_rgb_nv12_w dp k w h l ss sb l' ds db : cost_1_2 any k -> 0 <= w < 2 ^ 32 -> 0 <= h ->
  counts (rgb_nv12_w dp k w h l ss sb l' ds db) (h / 2 * (3 * w)) any.
Proof.
  intros K W H. assert (0 <= h / 2) by lia. assert (N : 0 <= h / 2 * (3 * w)) by nia. unfold rgb_nv12_w. cbv zeta. wrap N.
  apply counts_zero; [wrap (Z.le_refl 0)|intros [[yb uvb]|]; [|apply counts_retn; exact N]].
  wrap N. apply counts_last, K; [exact I|lia|lia].
Qed.
Lemma cost_nv12_rgb_w dp k w h l ss sb l' ds db : cost_2_1 any dp k -> 0 <= dp -> 0 <= w < 2 ^ 32 -> 0 <= h ->
  counts (nv12_rgb_w dp k w h l ss sb l' ds db) (h * (dp * w)) any.
Proof.
  intros K D W H. assert (N : 0 <= h * (dp * w)) by nia. unfold nv12_rgb_w. cbv zeta. wrap N.
  apply counts_zero; [wrap (Z.le_refl 0)|intros [[yb uvb]|]; [|apply counts_retn; exact N]].
  wrap N. apply counts_last, K; [exact I|lia|lia].
Qed.

(** ** The converters *)
Definition conv_bytes (c : conv) (w h : Z) : Z :=
  match c with
  | Rgb_rgb _ d => h * (pf_depth d * w)
  | Rgb_yuv _ I444 _ => h / 1 * (3 * w)
  | Rgb_yuv _ _ _ => h / 2 * (3 * w)
  | Yuv_rgb _ _ d => h * (pf_depth d * w)
  end.
Lemma div_lower n (P : Z -> Prop) : (forall w, 0 <= w -> lower_multiple_of_pot w n = n * (w / n)) -> 0 < n -> (forall w, w mod n = 0 -> P w) ->
  divides_width (fun w => lower_multiple_of_pot w n) P.
Proof.
  intros E N H w W. rewrite E by lia. pose proof (Z.div_pos w n). pose proof (Z.mul_div_le w n). split; [nia|]. apply H.
  rewrite Z.mul_comm. apply Z.mod_mul. lia.
Qed.
Lemma lower_4 w : 0 <= w -> lower_multiple_of_pot w 4 = 4 * (w / 4).
Proof. apply (lower_pot 2). lia. Qed.
Lemma div_fwd n dp : (forall w, 0 <= w -> lower_multiple_of_pot w n = n * (w / n)) -> 0 < n -> divides_width (fwd_vector_part n dp) any.
Proof.
  intros E N w W. unfold fwd_vector_part. destruct (dp =? 3) eqn:D.
  - assert (dp = 3) as -> by lia. pose proof (Z.div_pos w (3 * n)). pose proof (Z.mul_div_le w (3 * n)). split; [nia|exact I].
  - apply (div_lower n any E N); [intros; exact I|exact W].
Qed.
Ltac divided := first [apply div_fwd; [first [apply lower_4|apply lower_8]|lia] | apply div_lower; [first [exact lower_8|exact lower_16|exact lower_32]|lia|auto; intros; exact I]].
Definition fits (set : instruction_set) (c : conv) := forall w h l ss sb l' ds db, 0 <= w < 2 ^ 32 -> 0 <= h ->
  counts (converters_once set c w h l ss sb l' ds db) (conv_bytes c w h) any.

Lemma cost_neon_bgr_to_rgb_neon : cost_1_1 (fun w => w mod 16 = 0) 3 Neon.bgr_to_rgb_neon.
Proof. apply cost_neon_reorder; [intros x; rewrite (el_interleave 16 _ [[]; []; []]) by reflexivity; reflexivity|lia]. Qed.
Lemma cost_neon_bgra_to_rgb_neon : cost_1_1 (fun w => w mod 16 = 0) 3 Neon.bgra_to_rgb_neon.
Proof. apply cost_neon_reorder; [intros x; rewrite (el_interleave 16 _ [[]; []; []]) by reflexivity; reflexivity|lia]. Qed.
Lemma cost_neon_rgb_to_bgra_neon : cost_1_1 (fun w => w mod 16 = 0) 4 Neon.rgb_to_bgra_neon.
Proof. apply cost_neon_reorder; [intros x; rewrite (el_interleave 16 _ [[]; []; []; []]) by reflexivity; reflexivity|lia]. Qed.
Ltac kernel :=
  lazymatch goal with
  | |- cost_1_1 _ _ (bgr_to_rgb) => exact (cost_bgr_rgb)
  | |- cost_1_1 _ _ (bgra_to_rgb) => exact (cost_bgra_rgb)
  | |- cost_1_1 _ _ (rgb_to_bgra) => exact (cost_rgb_bgra)
  | |- cost_1_2 _ (rgb_to_nv12 _ _ _) => exact (cost_rgb_nv12 _ _ _)
  | |- cost_1_3 _ _ (rgb_to_i420 _ _ _) => exact (cost_rgb_i420 _ _ _)
  | |- cost_1_3 _ _ (rgb_to_i444 _ _ _) => exact (cost_rgb_i444 _ _ _)
  | |- cost_2_1 _ _ (nv12_to_bgra _ _) => exact (cost_nv12_bgra _ _)
  | |- cost_2_1 _ _ (nv12_to_rgb _) => exact (cost_nv12_rgb _)
  | |- cost_3_1 _ _ (i420_to_bgra _ _) => exact (cost_i420_bgra _ _)
  | |- cost_3_1 _ _ (i444_to_bgra _ _) => exact (cost_i444_bgra _ _)
  | |- cost_1_2 _ (Sse2.rgb_to_nv12_sse2 _ _ _) => exact (cost_sse2_nv12 _ _ _)
  | |- cost_1_3 _ _ (Sse2.rgb_to_i420_sse2 _ _ _) => exact (cost_sse2_i420 _ _ _)
  | |- cost_1_3 _ _ (Sse2.rgb_to_i444_sse2 _ _ _) => exact (cost_sse2_i444 _ _ _)
  | |- cost_2_1 _ _ (Sse2.nv12_to_bgra_sse2 _ _) => exact (cost_sse2_nv12_bgra _ _)
  | |- cost_3_1 _ _ (Sse2.i420_to_bgra_sse2 _ _) => exact (cost_sse2_i420_bgra _ _)
  | |- cost_3_1 _ _ (Sse2.i444_to_bgra_sse2 _ _) => exact (cost_sse2_i444_bgra _ _)
  | |- cost_1_1 _ _ (Sse2.rgb_to_bgra_sse2) => exact (cost_sse2_rgb_bgra)
  | |- cost_1_2 _ (Avx2.rgb_to_nv12_avx2 _ _ _) => exact (cost_avx2_nv12 _ _ _)
  | |- cost_1_3 _ _ (Avx2.rgb_to_i420_avx2 _ _ _) => exact (cost_avx2_i420 _ _ _)
  | |- cost_1_3 _ _ (Avx2.rgb_to_i444_avx2 _ _ _) => exact (cost_avx2_i444 _ _ _)
  | |- cost_2_1 _ _ (nv12_to_rgb_once _) => exact (cost_nv12_rgb_once _)
  | |- cost_2_1 _ _ (Avx2.nv12_to_bgra_avx2 _ _) => exact (cost_avx2_nv12_bgra _ _)
  | |- cost_3_1 _ _ (Avx2.i420_to_bgra_avx2 _ _) => exact (cost_avx2_i420_bgra _ _)
  | |- cost_3_1 _ _ (Avx2.i444_to_bgra_avx2 _ _) => exact (cost_avx2_i444_bgra _ _)
  | |- cost_1_1 _ _ (Avx2.rgb_to_bgra_avx2) => exact (cost_avx2_rgb_bgra)
  | |- cost_1_1 _ _ (Avx2.bgr_to_rgb_avx2) => exact (cost_avx2_bgr_rgb)
  | |- cost_1_1 _ _ (Avx2.bgra_to_rgb_avx2) => exact (cost_avx2_bgra_rgb)
  | |- cost_1_2 _ (Neon.rgb_to_nv12_neon _ _ _) => exact (cost_neon_nv12 _ _ _)
  | |- cost_1_3 _ _ (Neon.rgb_to_i420_neon _ _ _) => exact (cost_neon_i420 _ _ _)
  | |- cost_1_3 _ _ (Neon.rgb_to_i444_neon _ _ _) => exact (cost_neon_i444 _ _ _)
  | |- cost_1_1 _ _ (Neon.bgr_to_rgb_neon) => exact (cost_neon_bgr_to_rgb_neon)
  | |- cost_1_1 _ _ (Neon.bgra_to_rgb_neon) => exact (cost_neon_bgra_to_rgb_neon)
  | |- cost_1_1 _ _ (Neon.rgb_to_bgra_neon) => exact (cost_neon_rgb_to_bgra_neon)
  end.
Ltac hybrids :=
  lazymatch goal with
  | |- cost_1_1 _ _ (hyb_1_1 _ _ _ _ _) => eapply cost_hyb_1_1; [lia| |kernel|kernel]; divided
  | |- cost_1_2 _ (hyb_1_2 _ _ _ _) => eapply cost_hyb_1_2; [|kernel|kernel]; divided
  | |- cost_1_3 _ _ (hyb_1_3 _ _ _ _ _) => eapply cost_hyb_1_3; [lia| |kernel|kernel]; divided
  | |- cost_2_1 _ _ (hyb_2_1 _ _ _ _) => eapply cost_hyb_2_1; [lia| |kernel|kernel]; divided
  | |- cost_3_1 _ _ (hyb_3_1 _ _ _ _ _) => eapply cost_hyb_3_1; [lia| |kernel|kernel]; divided
  | |- _ => kernel
  end.
Ltac converter :=
  unfold fits; intros w h l ss sb l' ds db W H; cbn [conv_bytes converters_once converters x86_converter sse2_converter avx2_converter neon_converter pf_depth];
  first [apply cost_rgb_rgb_w|apply cost_rgb_i4xx_w|apply cost_rgb_nv12_w|apply cost_i4xx_rgb_w|apply cost_nv12_rgb_w];
  try lia; change (4 =? 4) with true; change (3 =? 4) with false; change (3 =? 3) with true; change (4 =? 3) with false; cbv iota; consts;
  change Sse2.LANE_COUNT with 16; change Avx2.LANE_COUNT with 32; change Neon.LANE_COUNT with 16; hybrids.
Lemma fits_x86 spf dpf scs dcs : supported spf dpf = true -> fits X86 (conv_of spf dpf scs dcs).
Proof. intros S. destruct spf, dpf; try discriminate S; cbn [conv_of is_rgb]; converter. Qed.
Lemma fits_sse2 spf dpf scs dcs : supported spf dpf = true -> fits CpuInfo.Sse2 (conv_of spf dpf scs dcs).
Proof. intros S. destruct spf, dpf; try discriminate S; cbn [conv_of is_rgb]; converter. Qed.
Lemma fits_avx2 spf dpf scs dcs : supported spf dpf = true -> fits CpuInfo.Avx2 (conv_of spf dpf scs dcs).
Proof. intros S. destruct spf, dpf; try discriminate S; cbn [conv_of is_rgb]; converter. Qed.
Lemma fits_neon spf dpf scs dcs : supported spf dpf = true -> fits CpuInfo.Neon (conv_of spf dpf scs dcs).
Proof. intros S. destruct spf, dpf; try discriminate S; cbn [conv_of is_rgb]; converter. Qed.
End Counts.
