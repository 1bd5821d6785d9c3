(** Proofs about threads. *)
From Coq Require Import ZArith List Bool Lia ZifyBool ZifyNat.
Import ListNotations.
From Verif Require Import Base Fmt Wrappers CpuInfo Spec ApiSpec Lib Sets Api Thread ThreadSpec.
Open Scope Z_scope.

(** *** The steps of a program are what [run] does *)

Definition after {A} (T : target) (m : mem) (a : action A) : res A :=
  match a with
  | Done a => Ok a m
  | Failed f => Fault f
  | Next c => run c T m
  | Fetch s i k =>
      let b := plane_bytes m (s_plane s) in
      let a := s_off s + i in
      if (0 <=? i) && (i <? s_len s) && (0 <=? a) && (a <? zlen b)
      then run (k (nth (Z.to_nat a) b 0)) T m
      else Fault OOB_read
  | Put s i v c =>
      match s_plane s with
      | Src _ => Fault OOB_write
      | Dst n =>
          let b := nth n (dsts m) [] in
          let a := s_off s + i in
          if (0 <=? i) && (i <? s_len s) && (0 <=? a) && (a <? zlen b)
          then run c T (Mem (srcs m) (upd (dsts m) n (upd b (Z.to_nat a) v)))
          else Fault OOB_write
      end
  end.

Lemma run_act {A} T (c : M A) : forall m, run c T m = after T m (act T c).
Proof.
  induction c as [A a|A f|A B c IHc k IHk|A k IHk|A r k IHk|A r k IHk|A s i k IHk|A s i v k IHk]; intros m; cbn [run act after]; try reflexivity.
  - rewrite IHc. destruct (act T c) as [a|f|c'|s i k'|s i v c']; cbn [after run]; try reflexivity.
    + destruct (_ && _ && _ && _); reflexivity.
    + destruct (s_plane s); [reflexivity|]. destruct (_ && _ && _ && _); reflexivity.
  - destruct ((0 <=? r) && (r <? usz T)); [reflexivity|]. destruct (checked T); reflexivity.
  - destruct ((- 2 ^ 31 <=? r) && (r <? 2 ^ 31)); [reflexivity|]. destruct (checked T); reflexivity.
Qed.

(** The number of steps. *)
Fixpoint cost {A} (c : M A) (T : target) (m : mem) {struct c} : nat :=
  match c with
  | Ret _ | Raise _ => 1
  | Bind c k => cost c T m + match run c T m with Ok a m' => S (cost (k a) T m') | Fault _ => 1 end
  | Ask k => S (cost (k T) T m)
  | Usize r k =>
      S (if (0 <=? r) && (r <? usz T) then cost (k r) T m else cost (k (r mod usz T)) T m)
  | Int32 r k =>
      S (if (- 2 ^ 31 <=? r) && (r <? 2 ^ 31) then cost (k r) T m else cost (k (wrap_i32 r)) T m)
  | Read s i k => S (cost (k (nth (Z.to_nat (s_off s + i)) (plane_bytes m (s_plane s)) 0)) T m)
  | Write s i v k =>
      S (match s_plane s with
         | Src _ => O
         | Dst n => cost (k tt) T (Mem (srcs m) (upd (dsts m) n (upd (nth n (dsts m) []) (Z.to_nat (s_off s + i)) v)))
         end)
  end.

Definition cost_after {A} (T : target) (m : mem) (a : action A) : nat :=
  match a with
  | Done _ | Failed _ => O
  | Next c => cost c T m
  | Fetch s i k => cost (k (nth (Z.to_nat (s_off s + i)) (plane_bytes m (s_plane s)) 0)) T m
  | Put s i v c =>
      match s_plane s with
      | Src _ => O
      | Dst n => cost c T (Mem (srcs m) (upd (dsts m) n (upd (nth n (dsts m) []) (Z.to_nat (s_off s + i)) v)))
      end
  end.

Lemma cost_act {A} T (c : M A) : forall m a m', run c T m = Ok a m' -> (cost_after T m (act T c) < cost c T m)%nat.
Proof.
  induction c as [A a|A f|A B c IHc k IHk|A k IHk|A r k IHk|A r k IHk|A s i k IHk|A s i v k IHk]; intros m x m'; cbn [run act cost_after cost];
    intros E; try lia.
  - destruct (run c T m) as [b mb|f] eqn:R; [|discriminate]. specialize (IHc _ _ _ R). pose proof R as R'. rewrite run_act in R'.
    destruct (act T c) as [a'|f|c'|s i k'|s i v c']; cbn [after cost_after cost] in *.
    + injection R' as -> ->. lia.
    + discriminate.
    + rewrite R'. lia.
    + destruct (_ && _ && _ && _); [|discriminate]. rewrite R'. lia.
    + destruct (s_plane s); [discriminate|]. destruct (_ && _ && _ && _); [|discriminate]. rewrite R'. lia.
  - destruct ((0 <=? r) && (r <? usz T)); cbn [cost_after]; [lia|]. destruct (checked T); [discriminate|]. cbn [cost_after]. lia.
  - destruct ((- 2 ^ 31 <=? r) && (r <? 2 ^ 31)); cbn [cost_after]; [lia|]. destruct (checked T); [discriminate|]. cbn [cost_after]. lia.
Qed.

(** *** Bytes and addresses *)

Lemma zseq_len n : forall a, length (zseq a n) = n.
Proof. induction n; intros; cbn [zseq length]; auto. Qed.
Lemma zseq_at n : forall a k d, (k < n)%nat -> nth k (zseq a n) d = a + Z.of_nat k.
Proof.
  induction n as [|n IH]; intros a k d H; [lia|]. destruct k; cbn [zseq nth]; [lia|]. rewrite IH by lia. lia.
Qed.

Lemma bytes_len hp r : zlen (bytes_of hp r) = Z.max 0 (r_len r).
Proof. unfold zlen, bytes_of, zrange. rewrite map_length, zseq_len. lia. Qed.

Lemma bytes_at hp r k : 0 <= k < r_len r -> nth (Z.to_nat k) (bytes_of hp r) 0 = hp (r_base r + k).
Proof.
  intros H. unfold bytes_of, zrange.
  rewrite nth_indep with (d' := hp 0) by (rewrite map_length, zseq_len; lia).
  rewrite map_nth, zseq_at by lia. f_equal. lia.
Qed.

Lemma bytes_ext hp hp' r : (forall a, inside a r -> hp a = hp' a) -> bytes_of hp r = bytes_of hp' r.
Proof.
  intros H. unfold bytes_of. apply map_ext_in. intros a I. apply H. unfold zrange, inside in *.
  apply (In_nth _ _ 0) in I. destruct I as (k & L & <-). rewrite zseq_len in L. rewrite zseq_at by lia. lia.
Qed.

Lemma bytes_inj hp hp' r a : bytes_of hp r = bytes_of hp' r -> inside a r -> hp a = hp' a.
Proof.
  intros E I. unfold inside in I. replace a with (r_base r + (a - r_base r)) by lia.
  rewrite <- !bytes_at by lia. rewrite E. reflexivity.
Qed.

Lemma upd_nth_same {A} (l : list A) : forall n v d, (n < length l)%nat -> nth n (upd l n v) d = v.
Proof. induction l; intros [|n] v d H; cbn [length upd nth] in *; try lia; auto. apply IHl. lia. Qed.
Lemma upd_nth_other {A} (l : list A) : forall n k v d, n <> k -> nth k (upd l n v) d = nth k l d.
Proof. induction l; intros [|n] [|k] v d H; cbn [upd nth]; try lia; auto. Qed.
Lemma upd_len {A} (l : list A) : forall n v, length (upd l n v) = length l.
Proof. induction l; intros [|n] v; cbn [upd length]; auto. Qed.

Lemma set_byte_bytes hp r k v : 0 <= k < r_len r ->
  bytes_of (set_byte hp (r_base r + k) v) r = upd (bytes_of hp r) (Z.to_nat k) v.
Proof.
  intros H. pose proof (bytes_len hp r) as L. unfold zlen in L.
  pose proof (bytes_len (set_byte hp (r_base r + k) v) r) as L'. unfold zlen in L'.
  apply nth_ext with (d := 0) (d' := 0); [rewrite upd_len; lia|].
  intros n Hn. replace n with (Z.to_nat (Z.of_nat n)) by lia.
  rewrite bytes_at by lia. unfold set_byte.
  destruct (Z.eqb_spec (r_base r + Z.of_nat n) (r_base r + k)) as [E|E].
  - replace (Z.of_nat n) with k by lia. rewrite upd_nth_same by lia. reflexivity.
  - rewrite upd_nth_other by lia. rewrite bytes_at by lia. reflexivity.
Qed.

Lemma set_byte_apart hp r a v : ~ inside a r -> bytes_of (set_byte hp a v) r = bytes_of hp r.
Proof.
  intros H. apply bytes_ext. intros x I. unfold set_byte. destruct (Z.eqb_spec x a); [subst; tauto|reflexivity].
Qed.

Definition view (hp : memory) (q : request) : mem := Mem (map (bytes_of hp) (q_from q)) (map (bytes_of hp) (q_to q)).

Lemma view_ext hp hp' q : (forall r a, In r (q_from q) \/ In r (q_to q) -> inside a r -> hp a = hp' a) ->
  view hp q = view hp' q.
Proof.
  intros H. unfold view. f_equal; apply map_ext_in; intros r I; apply bytes_ext; intros a Ha; apply (H r); auto.
Qed.

Definition region_of (q : request) (s : slice) : region :=
  match s_plane s with
  | Src n => nth n (q_from q) (Region 0 0)
  | Dst n => nth n (q_to q) (Region 0 0)
  end.

Lemma nth_bytes hp rs n : nth n (map (bytes_of hp) rs) [] = bytes_of hp (nth n rs (Region 0 0)).
Proof. change [] with (bytes_of hp (Region 0 0)) at 1. apply map_nth. Qed.

Lemma view_plane hp q s : plane_bytes (view hp q) (s_plane s) = bytes_of hp (region_of q s).
Proof. unfold region_of, view, plane_bytes. destruct (s_plane s); cbn [srcs dsts]; apply nth_bytes. Qed.

Lemma region_used q s a : inside a (region_of q s) -> 
  (In (region_of q s) (q_from q) \/ In (region_of q s) (q_to q)) /\ (is_dst s = true -> In (region_of q s) (q_to q)).
Proof.
  unfold region_of, is_dst. intros I.
  destruct (s_plane s) as [n|n].
  - split; [left|discriminate]. destruct (nth_in_or_default n (q_from q) (Region 0 0)) as [H|H]; [exact H|].
    rewrite H in I. unfold inside in I. cbn in I. lia.
  - assert (H : In (nth n (q_to q) (Region 0 0)) (q_to q)); [|auto].
    destruct (nth_in_or_default n (q_to q) (Region 0 0)) as [H|H]; [exact H|].
    rewrite H in I. unfold inside in I. cbn in I. lia.
Qed.

Lemma address_some q s i hp :
  (0 <=? i) && (i <? s_len s) && (0 <=? s_off s + i) && (s_off s + i <? zlen (plane_bytes (view hp q) (s_plane s))) = true ->
  exists k, k = s_off s + i /\ 0 <= k < r_len (region_of q s) /\ address q s i = Some (r_base (region_of q s) + k).
Proof.
  rewrite view_plane, bytes_len. intros H. exists (s_off s + i). split; [reflexivity|].
  assert (B : 0 <= s_off s + i < r_len (region_of q s)) by lia. split; [exact B|].
  unfold address. fold (region_of q s). cbv zeta.
  replace ((0 <=? i) && (i <? s_len s) && (0 <=? s_off s + i) && (s_off s + i <? r_len (region_of q s))) with true by lia.
  f_equal. lia.
Qed.

(** A write, seen by the call that makes it. *)
Lemma view_set hp q s i k n v : borrowed q -> s_plane s = Dst n -> k = s_off s + i -> 0 <= k < r_len (region_of q s) ->
  view (set_byte hp (r_base (region_of q s) + k) v) q =
  Mem (srcs (view hp q)) (upd (dsts (view hp q)) n (upd (nth n (dsts (view hp q)) []) (Z.to_nat (s_off s + i)) v)).
Proof.
  intros [B1 B2] E -> H. assert (I : inside (r_base (region_of q s) + (s_off s + i)) (region_of q s)) by (unfold inside; lia).
  destruct (region_used q s _ I) as [_ U]. unfold is_dst in U. rewrite E in U. specialize (U eq_refl).
  assert (R : region_of q s = nth n (q_to q) (Region 0 0)) by (unfold region_of; rewrite E; reflexivity).
  unfold view. cbn [srcs dsts]. f_equal.
  - apply map_ext_in. intros r Ir. apply set_byte_apart. intros Ia. exact (B2 _ _ U Ir _ I Ia).
  - rewrite nth_bytes, <- R.
    assert (Ln : (n < length (q_to q))%nat).
    { destruct (Nat.lt_ge_cases n (length (q_to q))); [assumption|]. rewrite nth_overflow in R by lia. rewrite R in H. cbn in H. lia. }
    apply nth_ext with (d := []) (d' := []); [rewrite upd_len, !map_length; reflexivity|].
    intros j Hj. rewrite map_length in Hj. rewrite nth_bytes.
    destruct (Nat.eq_dec n j) as [<-|Hne].
    + rewrite upd_nth_same by (rewrite map_length; lia). rewrite <- R. apply set_byte_bytes. lia.
    + rewrite upd_nth_other by assumption. rewrite nth_bytes. apply set_byte_apart. intros Ia.
      refine (B1 n j _ _ _ (nth_error_nth' _ (Region 0 0) Hj) Hne _ I Ia).
      rewrite R. apply nth_error_nth'. exact Ln.
Qed.

(** *** A call is its program *)

Lemma region_slices_eq hp mk rs : forall i, region_slices mk i rs = slices_from mk i (map (bytes_of hp) rs).
Proof.
  induction rs as [|r rs IH]; intros i; cbn [region_slices slices_from map]; [reflexivity|].
  rewrite bytes_len, IH. reflexivity.
Qed.

Lemma program_eq set T hp q :
  run (program set q) T (view hp q) =
  convert (converters set) T (q_w q) (q_h q) (q_src q) (q_dst q)
    (map (bytes_of hp) (q_from q)) (map (bytes_of hp) (q_to q)).
Proof.
  unfold program, convert, rust_slices. rewrite (region_slices_eq hp Src), (region_slices_eq hp Dst). reflexivity.
Qed.

(** *** Alone, with the number of steps *)

Section Threads.
Variable set : instruction_set.
Variable T : target.

Inductive alone_in : memory -> list request -> list outcome -> memory -> nat -> Prop :=
| alone_in_end : forall hp e, (forall a, e a = hp a) -> alone_in hp [] [] e 0
| alone_in_call : forall hp q qs o m hp1 ans e n,
    run (program set q) T (view hp q) = Ok o m ->
    map (bytes_of hp1) (q_to q) = dsts m ->
    (forall a, (forall r, In r (q_to q) -> ~ inside a r) -> hp1 a = hp a) ->
    alone_in hp1 qs ans e n ->
    alone_in hp (q :: qs) (o :: ans) e (1 + cost (program set q) T (view hp q) + n).

Lemma alone_counted hp qs ans e : alone set T hp qs ans e -> exists n, alone_in hp qs ans e n.
Proof.
  induction 1 as [hp e H|hp q qs o m hp1 ans e E1 E2 E3 _ [n IH]].
  - exists O. constructor. exact H.
  - eexists. econstructor; eauto. rewrite program_eq. exact E1.
Qed.

Lemma view_same hp hp' q : (forall a, hp' a = hp a) -> view hp' q = view hp q.
Proof. intros H. apply view_ext. auto. Qed.

Lemma alone_same hp hp' qs ans e n : (forall a, hp' a = hp a) -> alone_in hp qs ans e n -> alone_in hp' qs ans e n.
Proof.
  intros H A. destruct A as [hp e E|hp q qs o m hp1 ans e n E1 E2 E3 A].
  - constructor. intros a. rewrite E, H. reflexivity.
  - rewrite <- (view_same hp hp' q H). econstructor; eauto.
    + rewrite (view_same hp hp' q H). exact E1.
    + intros a Ha. rewrite E3, H by assumption. reflexivity.
Qed.

(** *** What is known of a thread at any time *)

Definition mine (qs : list request) (th : thread) : Prop :=
  (forall q, In q (todo th) -> In q qs) /\ (forall q c, current th = Some (q, c) -> In q qs).

(** [g] is the memory as if the thread were alone. *)
Definition sound (qs : list request) (ans : list outcome) (e : memory) (hp : memory) (th : thread) (n : nat) : Prop :=
  mine qs th /\
  exists g done rest,
    (forall r a, used_by qs r -> inside a r -> hp a = g a) /\
    answers th = map Answer done /\ ans = done ++ rest /\
    match current th with
    | None => alone_in g (todo th) rest e n
    | Some (q, c) => exists o rest' m hp1 n',
        rest = o :: rest' /\
        run c T (view g q) = Ok o m /\
        map (bytes_of hp1) (q_to q) = dsts m /\
        (forall a, (forall r, In r (q_to q) -> ~ inside a r) -> hp1 a = g a) /\
        alone_in hp1 (todo th) rest' e n' /\
        n = (cost c T (view g q) + n')%nat
    end.

Lemma inside_dec a rs : {exists r, In r rs /\ inside a r} + {forall r, In r rs -> ~ inside a r}.
Proof.
  destruct (Exists_dec (inside a) rs) as [H|H].
  - intros r. unfold inside. destruct (Z_le_dec (r_base r) a), (Z_lt_dec a (r_base r + r_len r)); [left|right..]; lia.
  - left. apply Exists_exists in H. exact H.
  - right. intros r I Ha. apply H. apply Exists_exists. eauto.
Qed.

(** What a step can change. *)
Lemma step_changes qs hp th : mine qs th ->
  mine qs (snd (thread_step set T hp th)) /\
  ((forall a, fst (thread_step set T hp th) a = hp a) \/
   exists x v r, written_by qs r /\ inside x r /\ fst (thread_step set T hp th) = set_byte hp x v).
Proof.
  intros [M1 M2]. unfold thread_step.
  assert (K : forall q c c', current th = Some (q, c) -> mine qs (Thread (todo th) (Some (q, c')) (answers th))).
  { intros q c c' E. split; cbn [todo current]; [exact M1|]. intros q' c0 E'. injection E' as <- <-. eauto. }
  assert (X : forall f, mine qs (crash th f)) by (intros f; split; cbn; [tauto|discriminate]).
  destruct (current th) as [[q c]|] eqn:C.
  - specialize (M2 q c eq_refl). specialize (fun c' => K q c c' eq_refl). cbv zeta.
    destruct (act T c) as [o|f|c'|s i k|s i v c']; cbn [fst snd].
    + split; [|auto]. split; cbn; [exact M1|discriminate].
    + auto.
    + auto.
    + destruct (address q s i); cbn [fst snd]; auto.
    + destruct (is_dst s) eqn:D; cbn [fst snd]; [|auto]. destruct (address q s i) as [a|] eqn:Ea; cbn [fst snd]; [|auto].
      split; [auto|]. right. unfold address in Ea. fold (region_of q s) in Ea. cbv zeta in Ea.
      destruct (_ && _ && _ && _) eqn:B; [|discriminate]. injection Ea as <-.
      assert (I : inside (r_base (region_of q s) + s_off s + i) (region_of q s)) by (unfold inside; lia).
      destruct (region_used q s _ I) as [_ U]. exists (r_base (region_of q s) + s_off s + i), v, (region_of q s).
      split; [exists q; auto|]. auto.
  - destruct (todo th) as [|q l] eqn:Q; cbn [fst snd].
    + split; [split; [rewrite Q; exact M1|rewrite C; discriminate]|auto].
    + split; [|auto]. split; cbn; [auto using in_cons|]. intros q' c' E. injection E as <- <-. apply M1. left. reflexivity.
Qed.

(** Steps of others. *)
Lemma sound_other qs ans e hp hp' th n : (forall r a, used_by qs r -> inside a r -> hp' a = hp a) ->
  sound qs ans e hp th n -> sound qs ans e hp' th n.
Proof.
  intros H (M & g & d & r & G & S). split; [exact M|]. exists g, d, r. split; [|exact S].
  intros r' a U I. rewrite (H r' a U I). eauto.
Qed.

(** Its own steps. *)
Lemma sound_step qs ans e hp th n : (forall q, In q qs -> borrowed q) -> sound qs ans e hp th n ->
  (idle th /\ thread_step set T hp th = (hp, th)) \/
  exists n', (n' < n)%nat /\ sound qs ans e (fst (thread_step set T hp th)) (snd (thread_step set T hp th)) n'.
Proof.
  intros HB (M & g & d & rest & G & EA & EL & S).
  pose proof (proj1 (step_changes qs hp th M)) as M'. unfold sound. unfold thread_step in *.
  destruct (current th) as [[q c]|] eqn:C.
  - right. destruct S as (o & rest' & m & hp1 & n' & -> & R & D & O & A & ->).
    assert (Iq : In q qs) by (eapply (proj2 M); eauto).
    pose proof (cost_act T c _ _ _ R) as HC. rewrite run_act in R. cbv zeta in *.
    destruct (act T c) as [o'|f|c'|s i k|s i v c']; cbn [after cost_after] in *.
    + injection R as -> <-. exists n'. split; [lia|]. cbn [fst snd]. split; [exact M'|].
      exists g, (d ++ [o]), rest'. split; [exact G|]. cbn [answers current todo].
      split; [rewrite EA, map_app; reflexivity|]. split; [rewrite EL, <- app_assoc; reflexivity|].
      refine (alone_same hp1 g _ _ _ _ _ A). intros a. symmetry.
      destruct (inside_dec a (q_to q)) as [(r & Ir & Ia)|N]; [|auto].
      cbn [dsts view] in D. apply (bytes_inj _ _ r); [|exact Ia].
      assert (E : forall l, map (bytes_of hp1) l = map (bytes_of g) l -> In r l -> bytes_of hp1 r = bytes_of g r).
      { induction l as [|x l IH]; cbn [map In]; [tauto|]. intros E [->|I]; injection E as E1 E2; auto. }
      exact (E _ D Ir).
    + discriminate.
    + exists (cost c' T (view g q) + n')%nat. split; [lia|]. cbn [fst snd]. split; [exact M'|].
      exists g, d, (o :: rest'). split; [exact G|]. cbn [answers current todo]. split; [exact EA|]. split; [exact EL|].
      exists o, rest', m, hp1, n'. auto 10.
    + destruct (_ && _ && _ && _) eqn:B in R; [|discriminate].
      destruct (address_some q s i g B) as (x & Ex & Hx & Ea). rewrite Ea in *. cbn [fst snd] in *.
      assert (Ii : inside (r_base (region_of q s) + x) (region_of q s)) by (unfold inside; lia).
      assert (V : nth (Z.to_nat (s_off s + i)) (plane_bytes (view g q) (s_plane s)) 0 = hp (r_base (region_of q s) + x)).
      { rewrite view_plane, <- Ex, bytes_at by exact Hx. symmetry. apply (G (region_of q s)); [|exact Ii].
        exists q. split; [exact Iq|]. apply (proj1 (region_used q s _ Ii)). }
      rewrite V in R, HC. eexists. split; [|split; [exact M'|]].
      2:{ exists g, d, (o :: rest'). split; [exact G|]. cbn [answers current todo]. split; [exact EA|]. split; [exact EL|].
          exists o, rest', m, hp1, n'. split; [reflexivity|]. split; [exact R|]. auto. }
      lia.
    + unfold is_dst in *. destruct (s_plane s) as [p|p] eqn:P; [discriminate|].
      destruct (_ && _ && _ && _) eqn:B in R; [|discriminate].
      assert (B' : (0 <=? i) && (i <? s_len s) && (0 <=? s_off s + i) &&
                   (s_off s + i <? zlen (plane_bytes (view g q) (s_plane s))) = true) by (rewrite P; exact B).
      destruct (address_some q s i g B') as (x & Ex & Hx & Ea). rewrite Ea in *. cbn [fst snd] in *.
      assert (Ii : inside (r_base (region_of q s) + x) (region_of q s)) by (unfold inside; lia).
      rewrite <- (view_set g q s i x p v (HB q Iq) P Ex Hx) in R, HC.
      eexists. split; [|split; [exact M'|]].
      2:{ exists (set_byte g (r_base (region_of q s) + x) v), d, (o :: rest').
          split. { intros r a U I. unfold set_byte. destruct (a =? _); [reflexivity|]. eauto. }
          cbn [answers current todo]. split; [exact EA|]. split; [exact EL|].
          exists o, rest', m, hp1, n'. split; [reflexivity|]. split; [exact R|]. split; [exact D|]. split; [|split; [exact A|reflexivity]].
          intros a Ha. unfold set_byte. destruct (Z.eqb_spec a (r_base (region_of q s) + x)) as [->|]; [|auto].
          exfalso. apply (Ha (region_of q s)); [|exact Ii]. apply (proj2 (region_used q s _ Ii)). unfold is_dst. rewrite P. reflexivity. }
      lia.
  - destruct (todo th) as [|q l] eqn:Q.
    + left. split; [split; assumption|]. reflexivity.
    + right. inversion S as [|? ? ? o m hp1 ans' e' n' R D O A]; subst.
      exists (cost (program set q) T (view g q) + n')%nat. split; [lia|]. cbn [fst snd] in *. split; [exact M'|].
      exists g, d, (o :: ans'). split; [exact G|]. cbn [answers current todo]. split; [exact EA|]. split; [reflexivity|].
      exists o, ans', m, hp1, n'. auto 10.
Qed.

(** *** All threads *)

Variable hp0 : memory.
Variable calls : list (list request).
Hypothesis HB : forall qs q, In qs calls -> In q qs -> borrowed q.
Hypothesis HI : independent calls.

Definition all_mine (st : memory * list thread) : Prop :=
  forall t qs, nth_error calls t = Some qs -> exists th, nth_error (snd st) t = Some th /\ mine qs th.
Definition fits (st : memory * list thread) : Prop := length (snd st) = length calls.

Lemma nth_error_upd {A} (l : list A) : forall n k v, nth_error (upd l n v) k =
  if Nat.eqb n k then (match nth_error l k with Some _ => Some v | None => None end) else nth_error l k.
Proof.
  induction l as [|x l IH]; intros [|n] [|k] v; cbn [upd nth_error Nat.eqb]; try reflexivity.
  - destruct (Nat.eqb n k); reflexivity.
  - apply IH.
Qed.

Lemma step_all t st : fits st -> all_mine st ->
  fits (step set T t st) /\ all_mine (step set T t st) /\
  (forall u qs, nth_error calls u = Some qs -> u <> t ->
     nth_error (snd (step set T t st)) u = nth_error (snd st) u /\
     forall r a, used_by qs r -> inside a r -> fst (step set T t st) a = fst st a) /\
  (forall a, (forall qs r, In qs calls -> written_by qs r -> ~ inside a r) -> fst (step set T t st) a = fst st a).
Proof.
  intros F A. unfold step. destruct (nth_error (snd st) t) as [th|] eqn:E; [|auto].
  assert (Lt : (t < length calls)%nat) by (rewrite <- F; apply nth_error_Some; congruence).
  destruct (nth_error calls t) as [qt|] eqn:Ct; [|apply nth_error_None in Ct; lia].
  destruct (A t qt Ct) as (th' & E' & Mt). rewrite E in E'. injection E' as <-.
  pose proof (step_changes qt (fst st) th Mt) as [M' W].
  destruct (thread_step set T (fst st) th) as [hp' th'] eqn:S. cbn [fst snd] in *.
  split; [|split; [|split]].
  - unfold fits. cbn [snd]. rewrite upd_len. exact F.
  - intros u qs Cu. cbn [snd]. rewrite nth_error_upd. destruct (Nat.eqb_spec t u) as [<-|Ne].
    + rewrite E. exists th'. split; [reflexivity|]. congruence.
    + auto.
  - intros u qs Cu Ne. rewrite nth_error_upd. destruct (Nat.eqb_spec t u) as [->|_]; [tauto|]. split; [reflexivity|].
    intros r a U I. destruct W as [W|(x & v & rw & Wr & Ix & ->)]; [auto|].
    unfold set_byte. destruct (Z.eqb_spec a x) as [->|_]; [|reflexivity]. exfalso.
    refine (HI t u qt qs rw r Ct Cu _ Wr U x Ix I). congruence.
  - intros a Ha. destruct W as [W|(x & v & rw & Wr & Ix & ->)]; [auto|].
    unfold set_byte. destruct (Z.eqb_spec a x) as [->|_]; [|reflexivity]. exfalso.
    apply (Ha qt rw); auto. eapply nth_error_In; eauto.
Qed.

Lemma start_fits : fits (start hp0 calls).
Proof. unfold fits, start. cbn [snd]. apply map_length. Qed.
Lemma start_mine : all_mine (start hp0 calls).
Proof.
  intros t qs E. unfold start. cbn [snd]. rewrite nth_error_map, E. eexists. split; [reflexivity|].
  split; cbn; [auto|discriminate].
Qed.

Lemma interleave_mine sch : forall st, fits st -> all_mine st ->
  fits (interleave set T sch st) /\ all_mine (interleave set T sch st) /\
  (forall a, (forall qs r, In qs calls -> written_by qs r -> ~ inside a r) -> fst (interleave set T sch st) a = fst st a).
Proof.
  induction sch as [|t sch IH]; intros st F A; [auto|]. cbn [interleave fold_left].
  destruct (step_all t st F A) as (F' & A' & _ & W). destruct (IH _ F' A') as (F'' & A'' & W'').
  split; [exact F''|]. split; [exact A''|]. intros a Ha. rewrite <- (W a Ha). apply W''. exact Ha.
Qed.

Lemma interleave_sound t qs ans e sch : nth_error calls t = Some qs -> forall st n,
  fits st -> all_mine st ->
  (exists th, nth_error (snd st) t = Some th /\ sound qs ans e (fst st) th n) ->
  exists th n', nth_error (snd (interleave set T sch st)) t = Some th /\
    sound qs ans e (fst (interleave set T sch st)) th n' /\
    (idle th \/ (n' + count_occ Nat.eq_dec sch t <= n)%nat).
Proof.
  intros Ct. induction sch as [|u sch IH]; intros st n F A (th & E & S).
  { exists th, n. split; [exact E|]. split; [exact S|]. right. cbn. lia. }
  cbn [interleave fold_left]. destruct (step_all u st F A) as (F' & A' & O & _).
  fold (interleave set T sch (step set T u st)).
  destruct (Nat.eq_dec u t) as [->|Ne].
  - assert (B : forall q, In q qs -> borrowed q) by (intros q I; eapply HB; eauto using nth_error_In).
    destruct (sound_step qs ans e (fst st) th n B S) as [[Id Eq]|(n1 & L & S1)].
    + assert (St : step set T t st = st).
      { unfold step. rewrite E, Eq. destruct st as [hp ths]. cbn [fst snd] in *. f_equal.
        clear -E. revert t E. induction ths as [|x l IH]; intros [|t]; cbn; try discriminate; [congruence|].
        intros E. f_equal. auto. }
      rewrite St in *. destruct (IH st n F A) as (th' & n' & E' & S' & _); [eauto|].
      (* an idle thread stays idle *)
      exists th', n'. split; [exact E'|]. split; [exact S'|]. left.
      assert (K : forall sch st, fits st -> all_mine st -> nth_error (snd st) t = Some th -> nth_error (snd (interleave set T sch st)) t = Some th).
      { clear -Id Ct HI. induction sch as [|u sch IH]; intros st F A E; [exact E|]. cbn [interleave fold_left].
        destruct (step_all u st F A) as (F' & A' & O & _). apply IH; auto.
        destruct (Nat.eq_dec u t) as [->|Ne].
        - unfold step. rewrite E. unfold thread_step. destruct Id as [I1 I2]. rewrite I1, I2. cbn [snd].
          rewrite nth_error_upd, E, Nat.eqb_refl. reflexivity.
        - rewrite (proj1 (O t qs Ct ltac:(congruence))). exact E. }
      rewrite (K sch st F A E) in E'. injection E' as <-. exact Id.
    + destruct (IH (step set T t st) n1 F' A') as (th' & n' & E' & S' & D).
      { unfold step. rewrite E. destruct (thread_step set T (fst st) th) as [hp' th'] eqn:X. cbn [fst snd] in *.
        exists th'. rewrite nth_error_upd, E, Nat.eqb_refl. auto. }
      exists th', n'. split; [exact E'|]. split; [exact S'|]. destruct D as [D|D]; [auto|right].
      rewrite count_occ_cons_eq by reflexivity. lia.
  - destruct (O t qs Ct ltac:(congruence)) as [O1 O2].
    destruct (IH (step set T u st) n F' A') as (th' & n' & E' & S' & D).
    { exists th. rewrite O1. split; [exact E|]. eapply sound_other; eauto. }
    exists th', n'. split; [exact E'|]. split; [exact S'|]. rewrite count_occ_cons_neq by assumption. exact D.
Qed.

Lemma start_sound t qs ans e : nth_error calls t = Some qs -> alone set T hp0 qs ans e ->
  exists n th, nth_error (snd (start hp0 calls)) t = Some th /\ sound qs ans e (fst (start hp0 calls)) th n.
Proof.
  intros Ct A. destruct (alone_counted _ _ _ _ A) as (n & An). exists n.
  unfold start. cbn [fst snd]. rewrite nth_error_map, Ct. eexists. split; [reflexivity|].
  split; [split; cbn; [auto|discriminate]|]. exists hp0, [], ans. cbn [current answers map app]. auto.
Qed.

Lemma thread_undisturbed t qs ans e sch : nth_error calls t = Some qs -> alone set T hp0 qs ans e ->
  let st := interleave set T sch (start hp0 calls) in
  exists th rest, nth_error (snd st) t = Some th /\ map Answer ans = answers th ++ rest /\
    (idle th -> answers th = map Answer ans /\ forall r a, used_by qs r -> inside a r -> fst st a = e a).
Proof.
  intros Ct A st. destruct (start_sound t qs ans e Ct A) as (n & S).
  destruct (interleave_sound t qs ans e sch Ct _ n start_fits start_mine S) as (th & n' & E & (M & g & d & rest & G & EA & EL & H) & _).
  exists th, (map Answer rest). split; [exact E|]. split; [rewrite EL, EA, map_app; reflexivity|].
  intros [I1 I2]. rewrite I1, I2 in H. inversion H; subst. rewrite app_nil_r. split; [exact EA|].
  intros r a U I. fold st in G. rewrite (G r a U I). auto.
Qed.

Lemma thread_finishes t qs ans e : nth_error calls t = Some qs -> alone set T hp0 qs ans e ->
  exists n, forall sch, (n <= count_occ Nat.eq_dec sch t)%nat ->
    exists th, nth_error (snd (interleave set T sch (start hp0 calls))) t = Some th /\ idle th.
Proof.
  intros Ct A. destruct (start_sound t qs ans e Ct A) as (n & S). exists (1 + n)%nat. intros sch Hs.
  destruct (interleave_sound t qs ans e sch Ct _ n start_fits start_mine S) as (th & n' & E & _ & [I|L]); [eauto|lia].
Qed.

Lemma rest_unchanged sch a : (forall qs r, In qs calls -> written_by qs r -> ~ inside a r) ->
  fst (interleave set T sch (start hp0 calls)) a = hp0 a.
Proof. apply (interleave_mine sch _ start_fits start_mine). Qed.

(** Where the next step goes. *)
Lemma access_inside qs ans e hp th n w a : sound qs ans e hp th n -> next_access T th = Some (w, a) ->
  exists r, inside a r /\ used_by qs r /\ (w = true -> written_by qs r).
Proof.
  intros (M & g & d & rest & G & EA & EL & H) X. unfold next_access in X.
  destruct (current th) as [[q c]|] eqn:C; [|discriminate]. cbv zeta in X.
  destruct H as (o & rest' & m & hp1 & n' & _ & R & _). rewrite run_act in R.
  assert (Iq : In q qs) by (eapply (proj2 M); eauto).
  destruct (act T c) as [o'|f|c'|s i k|s i v c']; cbn [after] in *; try discriminate.
  - fold (region_of q s) in X. injection X as <- <-. destruct (_ && _ && _ && _) eqn:B in R; [|discriminate].
    destruct (address_some q s i g B) as (x & Ex & Hx & Ea). exists (region_of q s).
    assert (Ii : inside (r_base (region_of q s) + s_off s + i) (region_of q s)) by (unfold inside; lia).
    split; [|split; [|discriminate]].
    + unfold region_of in *. destruct (s_plane s); exact Ii.
    + exists q. split; [exact Iq|]. apply (proj1 (region_used q s _ Ii)).
  - injection X as <- <-. destruct (s_plane s) as [p|p] eqn:P; [discriminate|].
    destruct (_ && _ && _ && _) eqn:B in R; [|discriminate].
    assert (B' : (0 <=? i) && (i <? s_len s) && (0 <=? s_off s + i) &&
                   (s_off s + i <? zlen (plane_bytes (view g q) (s_plane s))) = true) by (rewrite P; exact B).
    destruct (address_some q s i g B') as (x & Ex & Hx & Ea). exists (region_of q s).
    assert (Ii : inside (r_base (region_of q s) + s_off s + i) (region_of q s)) by (unfold inside; lia).
    assert (W : In (region_of q s) (q_to q)) by (apply (proj2 (region_used q s _ Ii)); unfold is_dst; rewrite P; reflexivity).
    split; [|split].
    + unfold region_of in *. rewrite P in *. exact Ii.
    + exists q. auto.
    + intros _. exists q. auto.
Qed.

Lemma no_race sch t u tht thu w a :
  (forall qs, In qs calls -> exists ans e, alone set T hp0 qs ans e) -> t <> u ->
  nth_error (snd (interleave set T sch (start hp0 calls))) t = Some tht ->
  nth_error (snd (interleave set T sch (start hp0 calls))) u = Some thu ->
  next_access T tht = Some (true, a) -> next_access T thu = Some (w, a) -> False.
Proof.
  intros HA Ne Et Eu Xt Xu.
  destruct (interleave_mine sch _ start_fits start_mine) as (F & _).
  assert (L : forall k th, nth_error (snd (interleave set T sch (start hp0 calls))) k = Some th ->
    exists qs ans e n, nth_error calls k = Some qs /\ sound qs ans e (fst (interleave set T sch (start hp0 calls))) th n).
  { intros k th Ek. assert (Lk : (k < length calls)%nat) by (rewrite <- F; apply nth_error_Some; congruence).
    destruct (nth_error calls k) as [qk|] eqn:Ck; [|apply nth_error_None in Ck; lia].
    destruct (HA qk (nth_error_In _ _ Ck)) as (ans & e & A). destruct (start_sound k qk ans e Ck A) as (n & S).
    destruct (interleave_sound k qk ans e sch Ck _ n start_fits start_mine S) as (th' & n' & E' & S' & _).
    exists qk, ans, e, n'. split; [reflexivity|]. congruence. }
  destruct (L t tht Et) as (qt & at_ & et & nt & Ct & St). destruct (L u thu Eu) as (qu & au & eu & nu & Cu & Su).
  destruct (access_inside _ _ _ _ _ _ _ _ St Xt) as (r & I & _ & W). specialize (W eq_refl).
  destruct (access_inside _ _ _ _ _ _ _ _ Su Xu) as (r' & I' & U & _).
  exact (HI t u qt qu r r' Ct Cu Ne W U a I I').
Qed.
End Threads.
