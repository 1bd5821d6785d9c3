(** Proofs about threads of a C program. *)
From Coq Require Import ZArith List Bool Lia ZifyBool ZifyNat.
Import ListNotations.
From Verif Require Import Base Fmt Wrappers CpuInfo Spec SetSpec ApiSpec Lib Sets Api Exec DataSpec DataFacts Thread ThreadSpec ThreadFacts ThreadBandFacts
  Trace TraceSpec TraceFacts TraceRunFacts CThread CThreadSpec.
Open Scope Z_scope.

(** ** Steps and accesses *)
Lemma calm_act {A} T (c : M A) : forall P, calm c P ->
  match act T c with
  | Done a => P a
  | Failed _ => True
  | Next c' => calm c' P
  | Fetch s i k => is_src s /\ forall v, calm (k v) P
  | Put _ _ _ c' => calm c' P
  end.
Proof.
  induction c as [a|f|A B c IH k IHk|A k IH|A r k IH|A r k IH|A s i k IH|A s i v k IH]; intros P C; cbn [act calm] in *; auto.
  - specialize (IH _ C). destruct (act T c); cbn [calm]; auto.
  - destruct (_ && _); [apply C|]. destruct (checked T); [exact I|apply C].
  - destruct (_ && _); [apply C|]. destruct (checked T); [exact I|apply C].
Qed.

Definition trace_after {A} (T : target) (m : mem) (a : action A) : list access :=
  match a with
  | Done _ | Failed _ => []
  | Next c => fst (traced c T m)
  | Fetch s i k =>
      let b := plane_bytes m (s_plane s) in
      let a := s_off s + i in
      Reads (s_plane s) a ::
      if (0 <=? i) && (i <? s_len s) && (0 <=? a) && (a <? zlen b)
      then fst (traced (k (nth (Z.to_nat a) b 0)) T m) else []
  | Put s i v c =>
      let a := s_off s + i in
      Writes (s_plane s) a v ::
      match s_plane s with
      | Src _ => []
      | Dst n => if (0 <=? i) && (i <? s_len s) && (0 <=? a) && (a <? zlen (nth n (dsts m) []))
                 then fst (traced c T (put m n a v)) else []
      end
  end.
Lemma traced_bind {A B} T (c : M A) (k : A -> M B) m : fst (traced (Bind c k) T m) =
  fst (traced c T m) ++ match run c T m with Ok a m' => fst (traced (k a) T m') | Fault _ => [] end.
Proof.
  cbn [traced]. rewrite (traced_eq T c m). destruct (run c T m) as [a m'|f]; [|rewrite app_nil_r; reflexivity].
  rewrite (traced_eq T (k a) m'). reflexivity.
Qed.
Lemma traced_act {A} T (c : M A) : forall m, fst (traced c T m) = trace_after T m (act T c).
Proof.
  induction c as [a|f|A B c IH k IHk|A k IH|A r k IH|A r k IH|A s i k IH|A s i v k IH]; intros m.
  - reflexivity.
  - reflexivity.
  - rewrite traced_bind, IH, run_act. cbn [act]. destruct (act T c) as [a'|f|c'|s i k'|s i v c']; cbn [after trace_after app]; cbv zeta.
    + reflexivity.
    + reflexivity.
    + rewrite traced_bind. reflexivity.
    + destruct (_ && _); [|reflexivity]. rewrite traced_bind. reflexivity.
    + destruct (s_plane s) as [n|n]; [reflexivity|]. destruct (_ && _); [|reflexivity]. rewrite traced_bind. reflexivity.
  - reflexivity.
  - cbn [traced act]. destruct (_ && _); [reflexivity|]. destruct (checked T); reflexivity.
  - cbn [traced act]. destruct (_ && _); [reflexivity|]. destruct (checked T); reflexivity.
  - cbn [traced act trace_after]. cbv zeta. destruct (_ && _); [|reflexivity]. rewrite traced_eq. reflexivity.
  - cbn [traced act trace_after]. cbv zeta. destruct (s_plane s); [reflexivity|]. destruct (_ && _); [|reflexivity]. rewrite traced_eq. reflexivity.
Qed.

(** ** The same sources *)
Definition same_input (m m' : mem) : Prop := srcs m = srcs m' /\ same_sizes (dsts m) (dsts m').
Lemma input_shape m m' : same_input m m' -> shape m m'.
Proof. intros [E S]. split; [rewrite E; reflexivity|exact S]. Qed.
Lemma calm_replay {A} T (c : M A) P m m' : calm c P -> same_input m m' ->
  fst (traced c T m') = fst (traced c T m) /\
  forall a m1, run c T m = Ok a m1 -> exists m1', run c T m' = Ok a m1' /\ same_input m1 m1'.
Proof.
  intros C S. destruct (replay T c m m' (input_shape _ _ S)) as [E R].
  - intros p x I _. destruct (proj1 (calm_traced T c P m C) p x I) as [n ->]. unfold byte_at, plane_bytes. rewrite (proj1 S). reflexivity.
  - split; [exact E|]. intros a m1 R1. rewrite R1 in R. destruct (run c T m') as [a' m1'|f] eqn:R2; [|contradiction].
    destruct R as (<- & [_ S2] & _). exists m1'. split; [reflexivity|]. split; [|exact S2].
    rewrite (proj1 (run_shape T c _ _ _ R1)), (proj1 (run_shape T c _ _ _ R2)). apply S.
Qed.
Lemma calm_cost {A} T (c : M A) : forall P m m', calm c P -> same_input m m' -> cost c T m' = cost c T m.
Proof.
  induction c as [a|f|A B c IH k IHk|A k IH|A r k IH|A r k IH|A s i k IH|A s i v k IH]; intros P m m' C S; cbn [cost calm] in *.
  - reflexivity.
  - reflexivity.
  - rewrite (IH _ m m' C S). f_equal.
    destruct (run c T m) as [a m1|f] eqn:R.
    + destruct (proj2 (calm_replay T c _ m m' C S) a m1 R) as (m1' & -> & S1). f_equal.
      apply (IHk a P); [|exact S1]. exact (proj2 (calm_traced T c _ m C) a m1 R).
    + destruct (run c T m') as [a m1|f'] eqn:R'; [|reflexivity]. exfalso.
      assert (S' : same_input m' m) by (destruct S; split; symmetry; assumption).
      destruct (proj2 (calm_replay T c _ m' m C S') a m1 R') as (m1' & E & _). congruence.
  - f_equal. exact (IH T P m m' (C T) S).
  - f_equal. destruct (_ && _); eapply IH; eauto.
  - f_equal. destruct (_ && _); eapply IH; eauto.
  - destruct C as [[n En] C]. f_equal. rewrite En. cbn [plane_bytes]. rewrite (proj1 S). eapply IH; eauto.
  - f_equal. destruct (s_plane s) as [n|n]; [reflexivity|]. apply (IH tt P); [exact C|].
    destruct S as [E S]. split; [exact E|]. cbn [dsts]. apply sizes_upd; [exact S|]. rewrite !upd_len.
    pose proof (sizes_nth _ _ n S) as L. unfold zlen in L. lia.
Qed.

Lemma bytes_sizes hp hp' rs : same_sizes (map (bytes_of hp) rs) (map (bytes_of hp') rs).
Proof.
  unfold same_sizes. rewrite !map_map. apply map_ext. intros r.
  pose proof (bytes_len hp r). pose proof (bytes_len hp' r). unfold zlen in *. lia.
Qed.
Lemma view_input hp hp' q : (forall r x, In r (q_from q) -> inside x r -> hp x = hp' x) -> same_input (view hp q) (view hp' q).
Proof.
  intros H. split; [|apply bytes_sizes]. cbn [view srcs]. apply map_ext_in. intros r I. apply bytes_ext. intros x. apply H, I.
Qed.

(** ** One thread *)
Section One.
Variables (set : instruction_set) (T : target) (hp0 : memory) (q : request).
Notation image_byte := (in_image (q_dst q) (q_w q) (q_h q)).
Hypothesis Hcall : c_call set T (q_w q) (q_h q) (q_src q) (q_dst q) (map (bytes_of hp0) (q_from q)) (map (bytes_of hp0) (q_to q)).
Hypothesis Hplace : forall n a n' a', image_byte n a -> image_byte n' a' -> place q n a = place q n' a' -> n = n' /\ a = a'.
Hypothesis Hsource : forall r x, target_byte q x -> In r (q_from q) -> ~ inside x r.

Definition whole : list access := fst (traced (c_program set q None) T (view hp0 q)).

Lemma whole_run : exists after, run (c_program set q None) T (view hp0 q) = Ok (C_Ok, None) (Mem (map (bytes_of hp0) (q_from q)) after) /\
  converted (set_cols set (i_pf (q_src q)) (i_pf (q_dst q)) (q_w q)) (q_src q) (q_dst q) (q_w q) (q_h q)
    (map (bytes_of hp0) (q_from q)) (map (bytes_of hp0) (q_to q)) after.
Proof.
  destruct (c_call_runs _ _ _ _ _ _ _ _ None Hcall) as (after & E & V). exists after. split; [|exact V].
  unfold c_convert in E. rewrite !map_length in E. exact E.
Qed.
Lemma whole_writes p x v : In (Writes p x v) whole -> exists n, p = Dst n /\ image_byte n x.
Proof.
  intros I. destruct whole_run as (after & E & _). destruct (traced_end _ _ _ _ _ E) as (_ & _ & W & _).
  destruct (W _ _ _ I) as (n & -> & _). exists n. split; [reflexivity|].
  apply (c_written_exactly _ _ _ _ _ _ _ _ None Hcall). exists v. unfold c_accesses. rewrite !map_length. exact I.
Qed.
Lemma whole_reads p x : In (Reads p x) whole -> exists n, p = Src n /\ 0 <= x < r_len (nth n (q_from q) (Region 0 0)).
Proof.
  intros I. destruct whole_run as (after & E & _). destruct (traced_end _ _ _ _ _ E) as (_ & _ & _ & D & _).
  destruct (proj1 (calm_traced T _ any (view hp0 q) (calm_dcp set _ _ _ _ _ _ _ _ None)) p x I) as [n ->].
  exists n. split; [reflexivity|]. specialize (D _ _ I). cbn [plane_bytes view srcs] in D. rewrite nth_bytes, bytes_len in D. lia.
Qed.

Definition written (l : list access) (hp : memory) : Prop := forall n a, image_byte n a ->
  hp (place q n a) = match last_written l n a with Some v => v | None => hp0 (place q n a) end.
Definition sound (hp : memory) (th : c_thread) (steps : nat) : Prop :=
  match th with
  | Running q' c => q' = q /\ calm c any /\ (cost c T (view hp q) <= steps)%nat /\
      exists l m, run c T (view hp q) = Ok (C_Ok, None) m /\ whole = l ++ fst (traced c T (view hp q)) /\ written l hp
  | Returned a => a = (C_Ok, None) /\ written whole hp
  | Died _ => False
  end.

Lemma sound_start : sound hp0 (Running q (c_program set q None)) (cost (c_program set q None) T (view hp0 q)).
Proof.
  split; [reflexivity|]. split; [apply calm_dcp|]. split; [lia|]. destruct whole_run as (after & E & _).
  exists [], (Mem (map (bytes_of hp0) (q_from q)) after). split; [exact E|]. split; [reflexivity|]. intros n a _. reflexivity.
Qed.

(** A byte written by someone else. *)
Lemma sound_other hp hp' th steps : sound hp th steps ->
  (forall r x, In r (q_from q) -> inside x r -> hp x = hp' x) ->
  (forall n a, image_byte n a -> hp (place q n a) = hp' (place q n a)) -> sound hp' th steps.
Proof.
  intros S E1 E2. destruct th as [q' c|a|f]; cbn [sound] in *; [|split; [apply S|]|exact S].
  - destruct S as (-> & C & K & l & m & R & L & W). pose proof (view_input hp hp' q E1) as V.
    destruct (calm_replay T c any _ _ C V) as [F G]. destruct (G _ _ R) as (m1 & R1 & _).
    split; [reflexivity|]. split; [exact C|]. split; [rewrite (calm_cost T c any _ _ C V); exact K|].
    exists l, m1. split; [exact R1|]. split; [rewrite F; exact L|]. intros n a I. rewrite <- E2 by exact I. apply W, I.
  - intros n x I. rewrite <- E2 by exact I. apply S, I.
Qed.

Lemma place_region n : forall a, r_base (nth n (q_to q) (Region 0 0)) + a = place q n a.
Proof. reflexivity. Qed.

Lemma sound_step hp th steps hp' th' : sound hp th steps -> c_thread_step T hp th = (hp', th') ->
  sound hp' th' (pred steps) /\ (hp' = hp \/ exists n a v, image_byte n a /\ hp' = set_byte hp (place q n a) v).
Proof.
  intros S E. destruct th as [q' c|a|f]; cbn [sound c_thread_step] in *.
  2:{ injection E as <- <-. split; [exact S|left; reflexivity]. }
  2:{ contradiction. }
  destruct S as (-> & C & K & l & m & R & L & W).
  pose proof (calm_act T c any C) as CA. pose proof (cost_act T c _ _ _ R) as KA.
  pose proof R as RA. rewrite run_act in RA. rewrite traced_act in L.
  destruct (act T c) as [o|f|c'|s i k|s i v c'] eqn:A; cbn [after cost_after trace_after] in *.
  - injection E as <- <-. injection RA as -> <-. split; [|left; reflexivity]. split; [reflexivity|].
    rewrite app_nil_r in L. rewrite L. exact W.
  - discriminate RA.
  - injection E as <- <-. split; [|left; reflexivity]. cbn [sound]. split; [reflexivity|]. split; [exact CA|]. split; [lia|].
    exists l, m. auto.
  - cbv zeta in *. destruct (_ && _) eqn:G; [|discriminate RA].
    destruct (address_some q s i hp G) as (y & Ey & By & Ad). rewrite Ad in E. injection E as <- <-.
    split; [|left; reflexivity].
    assert (Eb : nth (Z.to_nat (s_off s + i)) (plane_bytes (view hp q) (s_plane s)) 0 = hp (r_base (region_of q s) + y)).
    { rewrite view_plane, <- Ey. apply bytes_at. exact By. }
    rewrite Eb in *. cbn [sound]. split; [reflexivity|]. split; [apply CA|]. split; [lia|].
    exists (l ++ [Reads (s_plane s) (s_off s + i)]), m. split; [exact RA|]. split; [rewrite <- app_assoc; exact L|].
    intros n a I. rewrite last_app. cbn [last_written]. apply W, I.
  - cbv zeta in *. assert (Iw : In (Writes (s_plane s) (s_off s + i) v) whole) by (rewrite L; apply in_or_app; right; left; reflexivity).
    destruct (whole_writes _ _ _ Iw) as (n & En & In). unfold is_dst in E. rewrite En in *.
    destruct (_ && _) eqn:G; [|discriminate RA].
    assert (G' : (0 <=? i) && (i <? s_len s) && (0 <=? s_off s + i) && (s_off s + i <? zlen (plane_bytes (view hp q) (s_plane s))) = true)
      by (rewrite En; exact G).
    destruct (address_some q s i hp G') as (y & Ey & By & Ad). rewrite Ad in E. injection E as <- <-.
    assert (Ep : r_base (region_of q s) + y = place q n (s_off s + i)) by (unfold region_of, place; rewrite En, Ey; reflexivity).
    rewrite Ep. split; [|right; exists n, (s_off s + i), v; auto].
    set (hp' := set_byte hp (place q n (s_off s + i)) v) in *.
    change (Mem (srcs (view hp q)) _) with (put (view hp q) n (s_off s + i) v) in *.
    assert (V : same_input (put (view hp q) n (s_off s + i) v) (view hp' q)).
    { assert (V1 : same_input (view hp q) (view hp' q)).
      { apply view_input. intros r x Ir Ix. unfold hp', set_byte. destruct (Z.eqb_spec x (place q n (s_off s + i))) as [->|_]; [|reflexivity].
        exfalso. apply (Hsource r (place q n (s_off s + i))); [exists n, (s_off s + i); auto|exact Ir|exact Ix]. }
      destruct V1 as [V1 V2]. split; [exact V1|]. unfold same_sizes in *. rewrite <- V2. clear.
      unfold put. cbn [dsts]. set (l := dsts (view hp q)). 
      assert (U : forall l n b, length b = length (nth n l []) -> map (@length Z) (upd l n b) = map (@length Z) l).
      { clear. induction l as [|c l IH]; intros n b H; [destruct n; reflexivity|]. destruct n as [|n]; cbn [upd map nth] in *; [rewrite H; reflexivity|]. f_equal. apply IH, H. }
      apply U, upd_len. }
    destruct (calm_replay T c' any _ _ CA V) as [F Gr]. destruct (Gr _ _ RA) as (m1 & R1 & _).
    cbn [sound]. split; [reflexivity|]. split; [exact CA|]. split; [rewrite (calm_cost T c' any _ _ CA V); lia|].
    exists (l ++ [Writes (Dst n) (s_off s + i) v]), m1. split; [exact R1|]. split; [rewrite <- app_assoc, F; exact L|].
    intros k a I. rewrite last_app. cbn [last_written].
    unfold hp', set_byte. destruct (Z.eqb_spec (place q k a) (place q n (s_off s + i))) as [Eq|Ne].
    + destruct (Hplace _ _ _ _ I In Eq) as [-> ->]. rewrite Nat.eqb_refl, Z.eqb_refl. reflexivity.
    + replace ((n =? k)%nat && (s_off s + i =? a)) with false; [apply W, I|]. symmetry. apply andb_false_iff.
      destruct (Nat.eqb_spec n k) as [->|]; [right|left; reflexivity]. apply Z.eqb_neq. intros E. apply Ne. rewrite E. reflexivity.
Qed.

Lemma sound_access hp th steps w x : sound hp th steps -> c_next_access T th = Some (w, x) ->
  if w then target_byte q x else exists r, In r (q_from q) /\ inside x r.
Proof.
  intros S E. destruct th as [q' c|a|f]; cbn [sound c_next_access] in *; try discriminate E.
  destruct S as (-> & C & K & l & m & R & L & W). rewrite traced_act in L.
  destruct (act T c) as [o|f|c'|s i k|s i v c'] eqn:A; cbn [trace_after] in *; try discriminate E; injection E as <- <-.
  - assert (I : In (Reads (s_plane s) (s_off s + i)) whole) by (rewrite L; apply in_or_app; right; left; reflexivity).
    destruct (whole_reads _ _ I) as (n & -> & B). exists (nth n (q_from q) (Region 0 0)). split; [|unfold inside; lia].
    destruct (nth_in_or_default n (q_from q) (Region 0 0)) as [H|H]; [exact H|]. rewrite H in B. cbn in B. lia.
  - assert (I : In (Writes (s_plane s) (s_off s + i) v) whole) by (rewrite L; apply in_or_app; right; left; reflexivity).
    destruct (whole_writes _ _ _ I) as (n & -> & B). exists n, (s_off s + i). split; [exact B|]. unfold place. lia.
Qed.

Lemma sound_result hp a steps : sound hp (Returned a) steps -> a = (C_Ok, None) /\
  forall n x, image_byte n x -> alone_byte set T hp0 q n x (hp (place q n x)).
Proof.
  intros [-> W]. split; [reflexivity|]. intros n x I. destruct whole_run as (after & E & V).
  exists after. split; [unfold c_convert; rewrite !map_length; exact E|].
  destruct (traced_end _ _ _ _ _ E) as (_ & _ & _ & _ & B).
  assert (Bx : 0 <= x < buf_len (map (bytes_of hp0) (q_to q)) n).
  { destruct Hcall as (_ & _ & ? & ? & _ & _ & _ & _ & _ & _ & Ld & _). eapply in_image_buf; [| |exact Ld|exact I]; lia. }
  specialize (B n x ltac:(lia)). unfold byte_at in B. cbn [plane_bytes dsts] in B. rewrite B, (W n x I). fold whole.
  destruct (last_written whole n x); [reflexivity|]. cbn [view dsts]. rewrite nth_bytes. unfold buf_len in Bx. rewrite nth_bytes in Bx.
  symmetry. apply bytes_at. pose proof (bytes_len hp0 (nth n (q_to q) (Region 0 0))) as Lb. unfold zlen in Lb. lia.
Qed.
End One.
