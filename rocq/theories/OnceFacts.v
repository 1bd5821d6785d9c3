(** Invariant of the once-only initialisation of the context. *)
From Coq Require Import ZArith List Bool Lia PeanoNat.
Import ListNotations.
From Verif Require Import CpuInfo Lib Once.

Section Inv.
Variable cpu_of : nat -> cpu.

Definition inv (w : world) : Prop :=
  match lock w with
  | Unset => built w = 0%nat /\ seen w = [] /\ (forall t, threads w t = Outside \/ threads w t = Asking)
  | Busy => built w = 0%nat /\ seen w = [] /\
            exists b, threads w b = Building /\
                      forall t, t <> b -> threads w t = Outside \/ threads w t = Asking
  | Set_ c => built w = 1%nat /\ (exists t, c = cpu_get (cpu_of t)) /\ (forall c', In c' (seen w) -> c' = c) /\
              (forall t, threads w t = Outside \/ threads w t = Asking \/ threads w t = Got c)
  end.

Lemma set_same f t s : set_thread f t s t = s.
Proof. unfold set_thread. rewrite Nat.eqb_refl. reflexivity. Qed.
Lemma set_other f t s t' : t' <> t -> set_thread f t s t' = f t'.
Proof. intros H. unfold set_thread. destruct (Nat.eqb_spec t' t); [contradiction|reflexivity]. Qed.

Lemma step_inv t w w' : inv w -> step cpu_of t w w' -> inv w'.
Proof.
  intros I HS. unfold inv in *. inversion HS; subst; clear HS; cbn [lock threads built seen] in *.
  - destruct (lock w).
    + destruct I as (B & S & F). split; [|split]; auto. intros t'.
      destruct (Nat.eq_dec t' t) as [->|N]; [rewrite set_same; auto|rewrite set_other; auto].
    + destruct I as (B & S & b & Hb & F). split; [|split]; auto. exists b.
      assert (b <> t) by congruence. rewrite set_other by auto. split; auto. intros t' Ht'.
      destruct (Nat.eq_dec t' t) as [->|N]; [rewrite set_same; auto|rewrite set_other; auto].
    + destruct I as (B & S & C & F). split; [|split; [|split]]; auto. intros t'.
      destruct (Nat.eq_dec t' t) as [->|N]; [rewrite set_same; auto|rewrite set_other; auto].
  - rewrite H0 in *. destruct I as (B & S & C & F). split; [|split; [|split]]; auto.
    + intros c' [<-|H']; auto.
    + intros t'. destruct (Nat.eq_dec t' t) as [->|N]; [rewrite set_same; auto|rewrite set_other; auto].
  - rewrite H0 in *. destruct I as (B & S & F). split; [|split]; auto. exists t.
    rewrite set_same. split; auto. intros t' N. rewrite set_other; auto.
  - destruct (lock w).
    + destruct I as (_ & _ & F). destruct (F t); congruence.
    + destruct I as (B & S & b & Hb & F).
      assert (t = b). { destruct (Nat.eq_dec t b); auto. destruct (F t n); congruence. } subst b.
      rewrite B, S. split; [reflexivity|]. split; [exists t; reflexivity|]. split; [intros c' [H'|[]]; symmetry; exact H'|].
      intros t'. destruct (Nat.eq_dec t' t) as [->|N]; [rewrite set_same; auto|rewrite set_other by auto].
      destruct (F t' N); auto.
    + destruct I as (_ & _ & _ & F). destruct (F t) as [?|[?|?]]; congruence.
  - destruct (lock w).
    + destruct I as (B & S & F). split; [|split]; auto. intros t'.
      destruct (Nat.eq_dec t' t) as [->|N]; [rewrite set_same; auto|rewrite set_other; auto].
    + destruct I as (B & S & b & Hb & F). split; [|split]; auto. exists b.
      assert (b <> t) by congruence. rewrite set_other by auto. split; auto. intros t' Ht'.
      destruct (Nat.eq_dec t' t) as [->|N]; [rewrite set_same; auto|rewrite set_other; auto].
    + destruct I as (B & S & C & F). split; [|split; [|split]]; auto. intros t'.
      destruct (Nat.eq_dec t' t) as [->|N]; [rewrite set_same; auto|rewrite set_other; auto].
Qed.

Lemma reachable_inv w : reachable cpu_of w -> inv w.
Proof.
  induction 1 as [|w w' t _ IH HS].
  - cbn. auto.
  - exact (step_inv t w w' IH HS).
Qed.

Lemma once_only w : reachable cpu_of w -> (built w <= 1)%nat.
Proof. intros R. apply reachable_inv in R. unfold inv in R. destruct (lock w); destruct R; lia. Qed.

Lemma seen_one w : reachable cpu_of w ->
  forall c c', In c (seen w) -> In c' (seen w) -> c = c' /\ built w = 1%nat /\ exists t, c = cpu_get (cpu_of t).
Proof.
  intros R c c' H H'. apply reachable_inv in R. unfold inv in R. destruct (lock w).
  - destruct R as (_ & S & _). rewrite S in H. destruct H.
  - destruct R as (_ & S & _). rewrite S in H. destruct H.
  - destruct R as (B & E & S & _). rewrite (S c H), (S c' H'). auto.
Qed.

(** A context in use is the published one. *)
Lemma got_published w t c : reachable cpu_of w -> threads w t = Got c -> lock w = Set_ c.
Proof.
  intros R G. apply reachable_inv in R. unfold inv in R. destruct (lock w) as [| |c'].
  - destruct R as (_ & _ & F). destruct (F t); congruence.
  - destruct R as (_ & _ & b & Hb & F). destruct (Nat.eq_dec t b) as [->|N]; [congruence|].
    destruct (F t N); congruence.
  - destruct R as (_ & _ & _ & F). destruct (F t) as [?|[?|?]]; congruence.
Qed.

(** Nobody waits for ever: as long as a thread asks, some thread can move on. *)
Lemma progress w t : reachable cpu_of w -> threads w t = Asking ->
  exists t' w', step cpu_of t' w w' /\ (threads w' t' = Building \/ exists c, threads w' t' = Got c).
Proof.
  intros R A. pose proof (reachable_inv w R) as I. unfold inv in I.
  destruct (lock w) as [| |c] eqn:L.
  - exists t. eexists. split; [apply step_claim; auto|]. cbn. rewrite set_same. auto.
  - destruct I as (_ & _ & b & Hb & _). exists b. eexists. split; [apply step_publish; auto|].
    cbn. rewrite set_same. eauto.
  - exists t. eexists. split; [apply step_found; eauto|]. cbn. rewrite set_same. eauto.
Qed.
End Inv.

(** Two threads that start together. *)
Lemma race cpu_of : exists w, reachable cpu_of w /\
  seen w = [cpu_get (cpu_of 0%nat); cpu_get (cpu_of 0%nat)] /\ built w = 1%nat.
Proof.
  assert (R0 := reach_start cpu_of).
  eassert (R1 : reachable cpu_of _). { eapply reach_step; [exact R0|apply (step_call cpu_of 0); reflexivity]. }
  eassert (R2 : reachable cpu_of _). { eapply reach_step; [exact R1|apply (step_call cpu_of 1); reflexivity]. }
  eassert (R3 : reachable cpu_of _). { eapply reach_step; [exact R2|apply (step_claim cpu_of 0); reflexivity]. }
  eassert (R4 : reachable cpu_of _). { eapply reach_step; [exact R3|apply (step_publish cpu_of 0); reflexivity]. }
  eassert (R5 : reachable cpu_of _). { eapply reach_step; [exact R4|eapply (step_found cpu_of 1); reflexivity]. }
  eexists. split; [exact R5|]. split; reflexivity.
Qed.
