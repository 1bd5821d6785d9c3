(** Proofs about all threads of a C program together. *)
From Coq Require Import ZArith List Bool Lia ZifyBool ZifyNat.
Import ListNotations.
From Verif Require Import Base Fmt Wrappers CpuInfo Spec SetSpec ApiSpec Lib Sets Api Exec DataSpec DataFacts Thread ThreadSpec ThreadFacts ThreadBandFacts
  Trace TraceSpec TraceFacts TraceRunFacts CThread CThreadSpec CThreadFacts.
Open Scope Z_scope.

Section All.
Variables (set : instruction_set) (T : target) (hp0 : memory) (calls : list request).
Hypothesis Hok : calls_ok set T hp0 calls.

Definition all_sound (st : memory * list c_thread) (steps : nat -> nat) : Prop :=
  length (snd st) = length calls /\
  (forall t q, nth_error calls t = Some q -> exists th, nth_error (snd st) t = Some th /\ sound set T hp0 q (fst st) th (steps t)) /\
  (forall x, (forall q, In q calls -> ~ target_byte q x) -> fst st x = hp0 x).

Definition costs (t : nat) : nat :=
  match nth_error calls t with Some q => cost (c_program set q None) T (view hp0 q) | None => O end.
Lemma all_start : all_sound (c_start set hp0 calls) costs.
Proof.
  split; [cbn [c_start snd]; apply map_length|]. split; [|intros x _; reflexivity].
  intros t q E. exists (Running q (c_program set q None)). split; [cbn [c_start snd]; rewrite nth_error_map, E; reflexivity|].
  unfold costs. rewrite E. apply sound_start. apply Hok, (nth_error_In _ _ E).
Qed.

Definition pass (t : nat) (steps : nat -> nat) : nat -> nat := fun u => if (t =? u)%nat then pred (steps t) else steps u.
Lemma all_step st steps t : all_sound st steps -> all_sound (c_step T t st) (pass t steps).
Proof.
  destruct Hok as (H1 & H2 & H3). destruct st as [hp ths]. intros (Len & S & O). unfold c_step. cbn [fst snd] in *.
  destruct (nth_error ths t) as [th|] eqn:Et.
  - destruct (nth_error calls t) as [q|] eqn:Eq.
    2:{ exfalso. apply nth_error_None in Eq. assert (t < length ths)%nat by (apply nth_error_Some; congruence). lia. }
    pose proof (nth_error_In _ _ Eq) as Iq. destruct (H1 _ Iq) as [Hc Hp].
    destruct (S t q Eq) as (th0 & E0 & S0). rewrite Et in E0. injection E0 as <-.
    destruct (c_thread_step T hp th) as [hp' th'] eqn:E.
    destruct (sound_step set T hp0 q Hc Hp (fun r x B I => H2 q q r x Iq Iq B I) hp th (steps t) hp' th' S0 E) as [S' Ch].
    assert (Cx : forall x, ~ target_byte q x -> hp x = hp' x).
    { intros x N. destruct Ch as [->|(n & a & v & I & ->)]; [reflexivity|]. unfold set_byte.
      destruct (Z.eqb_spec x (place q n a)) as [->|_]; [|reflexivity]. exfalso. apply N. exists n, a. auto. }
    split; [cbn [snd]; rewrite upd_len; exact Len|]. split.
    + intros u q' Eu. cbn [fst snd]. unfold pass. destruct (Nat.eqb_spec t u) as [<-|N].
      * rewrite Eq in Eu. injection Eu as <-. exists th'. split; [|exact S'].
        rewrite nth_error_upd, Nat.eqb_refl. cbn [andb]. rewrite Et. reflexivity.
      * destruct (S u q' Eu) as (th1 & E1 & S1). exists th1. split.
        { rewrite nth_error_upd. destruct (Nat.eqb_spec t u); [contradiction|]. exact E1. }
        apply (sound_other set T hp0 q' hp hp' th1 _ S1).
        -- intros r x Ir Ix. apply Cx. intros B. exact (H2 q q' r x Iq (nth_error_In _ _ Eu) B Ir Ix).
        -- intros n a I. apply Cx. intros B. apply (H3 t u q q' (place q' n a) Eq Eu N B). exists n, a. auto.
    + intros x N. cbn [fst]. rewrite <- Cx by (apply N, Iq). apply O, N.
  - split; [exact Len|]. split; [|exact O]. intros u q Eu. cbn [fst snd]. destruct (S u q Eu) as (th & E & S1). exists th. split; [exact E|].
    unfold pass. destruct (Nat.eqb_spec t u) as [->|_]; [congruence|exact S1].
Qed.

Lemma all_run schedule : forall st steps, all_sound st steps ->
  exists steps', all_sound (c_interleave T schedule st) steps' /\ forall t, (steps' t = steps t - count_occ Nat.eq_dec schedule t)%nat.
Proof.
  induction schedule as [|t sch IH]; intros st steps S.
  - exists steps. split; [exact S|]. intros t. cbn [count_occ]. lia.
  - unfold c_interleave. cbn [fold_left]. destruct (IH _ _ (all_step _ _ t S)) as (steps' & S' & E). exists steps'. split; [exact S'|].
    intros u. rewrite E. unfold pass. cbn [count_occ]. destruct (Nat.eq_dec t u) as [->|N].
    + rewrite Nat.eqb_refl. lia.
    + destruct (Nat.eqb_spec t u); [contradiction|]. reflexivity.
Qed.

Lemma threads_known schedule t th : nth_error (snd (c_interleave T schedule (c_start set hp0 calls))) t = Some th ->
  exists q, nth_error calls t = Some q /\ exists n, sound set T hp0 q (fst (c_interleave T schedule (c_start set hp0 calls))) th n.
Proof.
  intros E. destruct (all_run schedule _ _ all_start) as (n & (L & S & _) & _).
  destruct (nth_error calls t) as [q|] eqn:Eq.
  - exists q. split; [reflexivity|]. destruct (S t q Eq) as (th' & E' & S'). rewrite E in E'. injection E' as <-. exists (n t). exact S'.
  - apply nth_error_None in Eq. assert (t < length (snd (c_interleave T schedule (c_start set hp0 calls))))%nat by (apply nth_error_Some; congruence). lia.
Qed.

Lemma c_undisturbed schedule t q : nth_error calls t = Some q ->
  match nth_error (snd (c_interleave T schedule (c_start set hp0 calls))) t with
  | Some (Running _ _) => True
  | Some (Returned a) => a = (C_Ok, None) /\
      forall n x, in_image (q_dst q) (q_w q) (q_h q) n x ->
        alone_byte set T hp0 q n x (fst (c_interleave T schedule (c_start set hp0 calls)) (place q n x))
  | Some (Died _) | None => False
  end.
Proof.
  intros E. destruct (all_run schedule _ _ all_start) as (n & (L & S & _) & _).
  destruct (S t q E) as (th & -> & S'). destruct th as [q' c|a|f]; [exact I| |exact S'].
  destruct (proj1 Hok q (nth_error_In _ _ E)) as [H1 H2]. eapply sound_result; eauto. intros r x B Ir. exact (proj1 (proj2 Hok) q q r x (nth_error_In _ _ E) (nth_error_In _ _ E) B Ir).
Qed.
Lemma cost_some {A} (c : M A) m : (1 <= cost c T m)%nat.
Proof. destruct c; cbn [cost]; try lia. destruct (run _ _ _); lia. Qed.
Lemma c_finishes : exists turns : nat, forall schedule,
  (forall t, (t < length calls)%nat -> (turns <= count_occ Nat.eq_dec schedule t)%nat) ->
  Forall (fun th => th = Returned (C_Ok, None)) (snd (c_interleave T schedule (c_start set hp0 calls))).
Proof.
  exists (list_max (map costs (seq 0 (length calls)))). intros schedule H.
  destruct (all_run schedule _ _ all_start) as (n & (L & S & _) & En).
  apply Forall_forall. intros th I. destruct (In_nth_error _ _ I) as [t Et].
  assert (Lt : (t < length calls)%nat) by (rewrite <- L; apply nth_error_Some; congruence).
  destruct (nth_error calls t) as [q|] eqn:Eq; [|apply nth_error_None in Eq; lia].
  destruct (S t q Eq) as (th' & E' & S'). rewrite Et in E'. injection E' as <-.
  destruct th as [q' c|a|f]; cbn [sound] in S'.
  - exfalso. destruct S' as (_ & _ & K & _). pose proof (cost_some c (view (fst (c_interleave T schedule (c_start set hp0 calls))) q)).
    rewrite En in K. specialize (H t Lt).
    assert (costs t <= list_max (map costs (seq 0 (length calls))))%nat.
    { pose proof (proj1 (list_max_le (map costs (seq 0 (length calls))) _) (Nat.le_refl _)) as F. rewrite Forall_forall in F.
      apply F, in_map, in_seq. lia. }
    lia.
  - f_equal. apply S'.
  - contradiction.
Qed.
Lemma c_elsewhere schedule x : (forall q, In q calls -> ~ target_byte q x) ->
  fst (c_interleave T schedule (c_start set hp0 calls)) x = hp0 x.
Proof. destruct (all_run schedule _ _ all_start) as (n & (_ & _ & O) & _). apply O. Qed.
Lemma c_no_race schedule t u th th' w w' x : t <> u ->
  nth_error (snd (c_interleave T schedule (c_start set hp0 calls))) t = Some th ->
  nth_error (snd (c_interleave T schedule (c_start set hp0 calls))) u = Some th' ->
  c_next_access T th = Some (w, x) -> c_next_access T th' = Some (w', x) -> w = false /\ w' = false.
Proof.
  intros N Et Eu At Au. destruct Hok as (H1 & H2 & H3).
  destruct (threads_known _ _ _ Et) as (q & Eq & n & S). destruct (threads_known _ _ _ Eu) as (q' & Eq' & n' & S').
  pose proof (nth_error_In _ _ Eq) as Iq. pose proof (nth_error_In _ _ Eq') as Iq'.
  pose proof (sound_access set T hp0 q (proj1 (H1 _ Iq)) (proj2 (H1 _ Iq)) (fun r y B I => H2 q q r y Iq Iq B I) _ _ _ _ _ S At) as B.
  pose proof (sound_access set T hp0 q' (proj1 (H1 _ Iq')) (proj2 (H1 _ Iq')) (fun r y B I => H2 q' q' r y Iq' Iq' B I) _ _ _ _ _ S' Au) as B'.
  destruct w, w'; auto; exfalso.
  - exact (H3 _ _ _ _ x Eq Eq' N B B').
  - destruct B' as (r & Ir & Ix). exact (H2 q q' r x Iq Iq' B Ir Ix).
  - destruct B as (r & Ir & Ix). exact (H2 q' q r x Iq' Iq B' Ir Ix).
Qed.
End All.
