(** Proofs about threads that share a picture. *)
From Coq Require Import ZArith List Bool Lia ZifyBool ZifyNat.
Import ListNotations.
From Verif Require Import Base Fmt Wrappers CpuInfo Spec ApiSpec Lib Sets Api BandSpec ResultFacts PropFacts BandFacts
  Thread ThreadSpec ThreadFacts.
Open Scope Z_scope.

(** *** Calls that return have a run *)

Lemma run_shape {A} T (c : M A) : forall m a m', run c T m = Ok a m' ->
  srcs m' = srcs m /\ map (@length Z) (dsts m') = map (@length Z) (dsts m).
Proof.
  induction c as [A a|A f|A B c IHc k IHk|A k IHk|A r k IHk|A r k IHk|A s i k IHk|A s i v k IHk]; intros m x m'; cbn [run].
  - intros E. injection E as _ <-. auto.
  - discriminate.
  - destruct (run c T m) as [b m1|] eqn:E; [|discriminate]. intros E'.
    destruct (IHc _ _ _ E) as [A1 A2]. destruct (IHk _ _ _ _ E') as [B1 B2]. split; congruence.
  - apply IHk.
  - destruct (_ && _); [apply IHk|]. destruct (checked T); [discriminate|apply IHk].
  - destruct (_ && _); [apply IHk|]. destruct (checked T); [discriminate|apply IHk].
  - destruct (_ && _ && _ && _); [apply IHk|discriminate].
  - destruct (s_plane s) as [n|n]; [discriminate|]. destruct (_ && _ && _ && _); [|discriminate].
    intros E. destruct (IHk _ _ _ _ E) as [E1 E2]. cbn [srcs dsts] in *. split; [exact E1|]. rewrite E2.
    assert (U : forall (l : list (list Z)) n b, length b = length (nth n l []) -> map (@length Z) (upd l n b) = map (@length Z) l).
    { clear. induction l as [|x l IH]; intros [|n] b H; cbn [upd map nth] in *; [reflexivity..| |]; f_equal; auto. }
    apply U, upd_len.
Qed.

Lemma fill_regions (hp : memory) rs : forall bs,
  (forall i j r r', nth_error rs i = Some r -> nth_error rs j = Some r' -> i <> j -> apart r r') ->
  map (@length Z) bs = map (fun r => Z.to_nat (r_len r)) rs ->
  exists hp1, map (bytes_of hp1) rs = bs /\ forall a, (forall r, In r rs -> ~ inside a r) -> hp1 a = hp a.
Proof.
  induction rs as [|r rs IH]; intros [|b bs] D L; try discriminate; cbn [map] in L.
  { exists hp. auto. }
  injection L as L1 L2.
  destruct (IH bs) as (hp1 & E & O).
  { intros i j r1 r2 H1 H2 Ne. apply (D (S i) (S j)); cbn; auto. }
  { exact L2. }
  exists (fun a => if (r_base r <=? a) && (a <? r_base r + r_len r) then nth (Z.to_nat (a - r_base r)) b 0 else hp1 a).
  split.
  - cbn [map]. f_equal.
    + apply nth_ext with (d := 0) (d' := 0).
      { pose proof (bytes_len (fun a => if (r_base r <=? a) && (a <? r_base r + r_len r) then nth (Z.to_nat (a - r_base r)) b 0 else hp1 a) r) as Q.
        unfold zlen in Q. lia. }
      intros n Hn.
      pose proof (bytes_len (fun a => if (r_base r <=? a) && (a <? r_base r + r_len r) then nth (Z.to_nat (a - r_base r)) b 0 else hp1 a) r) as Q.
      unfold zlen in Q. replace n with (Z.to_nat (Z.of_nat n)) at 1 by lia. rewrite bytes_at by lia.
      replace ((r_base r <=? r_base r + Z.of_nat n) && (r_base r + Z.of_nat n <? r_base r + r_len r)) with true by lia.
      f_equal. lia.
    + rewrite <- E. apply map_ext_in. intros r' I. apply bytes_ext. intros a Ia.
      replace ((r_base r <=? a) && (a <? r_base r + r_len r)) with false; [reflexivity|].
      apply In_nth_error in I. destruct I as [j Ej].
      destruct ((r_base r <=? a) && (a <? r_base r + r_len r)) eqn:X; [|reflexivity]. exfalso.
      refine (D 0%nat (S j) r r' eq_refl Ej ltac:(lia) a _ Ia). unfold inside. lia.
  - intros a N. replace ((r_base r <=? a) && (a <? r_base r + r_len r)) with false.
    + apply O. intros r' I. apply N. right. exact I.
    + specialize (N r (or_introl eq_refl)). unfold inside in N. lia.
Qed.

Lemma call_alone set T hp q qs o m : borrowed q ->
  convert (converters set) T (q_w q) (q_h q) (q_src q) (q_dst q)
    (map (bytes_of hp) (q_from q)) (map (bytes_of hp) (q_to q)) = Ok o m ->
  (forall hp1, (forall a, (forall r, In r (q_to q) -> ~ inside a r) -> hp1 a = hp a) -> exists ans e, alone set T hp1 qs ans e) ->
  exists ans e, alone set T hp (q :: qs) ans e.
Proof.
  intros [B _] E K. pose proof E as E'. unfold convert in E'. apply run_shape in E'. cbn [srcs dsts] in E'. destruct E' as [_ L].
  destruct (fill_regions hp (q_to q) (dsts m) B) as (hp1 & H1 & H2).
  { rewrite L, map_map. apply map_ext. intros r. pose proof (bytes_len hp r) as Q. unfold zlen in Q. lia. }
  destruct (K hp1 H2) as (ans & e & A). exists (o :: ans), e. econstructor; eauto.
Qed.

(** *** Parts of slices *)

Lemma part_inside r a b x : 0 <= a -> inside x (part r a b) -> inside x r /\ a <= x - r_base r < b.
Proof. unfold inside, part. cbn [r_base r_len]. lia. Qed.
Lemma inside_part r a b x : inside x r -> a <= x - r_base r < b -> inside x (part r a b).
Proof. unfold inside, part. cbn [r_base r_len]. lia. Qed.

Lemma part_bytes hp r a b : 0 <= a <= b ->
  bytes_of hp (part r a b) = firstn (Z.to_nat (b - a)) (skipn (Z.to_nat a) (bytes_of hp r)).
Proof.
  intros H. pose proof (bytes_len hp r) as L. pose proof (bytes_len hp (part r a b)) as L'. unfold zlen in *.
  cbn [part r_len] in L'.
  apply nth_ext with (d := 0) (d' := 0); [rewrite firstn_length, skipn_length; lia|].
  intros n Hn. rewrite nth_firstn by lia. rewrite nth_skipn.
  replace n with (Z.to_nat (Z.of_nat n)) at 1 by lia. rewrite bytes_at by (cbn [part r_len]; lia).
  replace (Z.to_nat a + n)%nat with (Z.to_nat (a + Z.of_nat n)) by lia. rewrite bytes_at by lia.
  f_equal. cbn [part r_base]. lia.
Qed.

Lemma numbered_map {B C} (F : nat -> list Z -> C) (G : nat -> region -> B) (K : B -> C) (f : region -> list Z) rs :
  (forall p r, K (G p r) = F p (f r)) ->
  map K (map (fun '(p, r) => G p r) (numbered_regions rs)) = map (fun '(p, b) => F p b) (numbered (map f rs)).
Proof.
  intros H. unfold numbered_regions, numbered. rewrite map_length. generalize 0%nat.
  induction rs as [|r rs IH]; intros n; [reflexivity|]. cbn [length seq combine map]. rewrite H. f_equal. apply IH.
Qed.

Lemma band_bytes hp im w y0 y1 rs : (forall p, 0 <= row_start im w y0 p <= row_start im w y1 p) ->
  map (bytes_of hp) (band_of im w y0 y1 rs) = band im w y0 y1 (map (bytes_of hp) rs).
Proof.
  intros H. unfold band_of, band. apply (numbered_map (fun p b => firstn (Z.to_nat (row_start im w y1 p - row_start im w y0 p))
    (skipn (Z.to_nat (row_start im w y0 p)) b)) (fun p r => part r (row_start im w y0 p) (row_start im w y1 p)) (bytes_of hp) (bytes_of hp)).
  intros p r. apply part_bytes. apply H.
Qed.

Lemma rest_bytes hp im w y0 rs : (forall p, 0 <= row_start im w y0 p) ->
  map (bytes_of hp) (rest_of im w y0 rs) = rest im w y0 (map (bytes_of hp) rs).
Proof.
  intros H. unfold rest_of, rest. apply (numbered_map (fun p b => (skipn (Z.to_nat (row_start im w y0 p)) b))
    (fun p r => part r (row_start im w y0 p) (r_len r)) (bytes_of hp) (bytes_of hp)).
  intros p r. specialize (H p).
  pose proof (bytes_len hp r) as L. pose proof (bytes_len hp (part r (row_start im w y0 p) (r_len r))) as L'. unfold zlen in *.
  cbn [part r_len] in L'. apply nth_ext with (d := 0) (d' := 0); [rewrite skipn_length; lia|].
  intros n Hn. rewrite nth_skipn.
  replace n with (Z.to_nat (Z.of_nat n)) at 1 by lia. rewrite bytes_at by (cbn [part r_len]; lia).
  replace (Z.to_nat (row_start im w y0 p) + n)%nat with (Z.to_nat (row_start im w y0 p + Z.of_nat n)) by lia. rewrite bytes_at by lia.
  f_equal. cbn [part r_base]. lia.
Qed.

Lemma numbered_nth {B} (G : nat -> region -> B) rs n :
  nth_error (map (fun '(p, r) => G p r) (numbered_regions rs)) n = option_map (G n) (nth_error rs n).
Proof.
  unfold numbered_regions. replace (G n) with (G (0 + n)%nat) by reflexivity. generalize 0%nat. revert n.
  induction rs as [|r rs IH]; intros [|n] k; cbn [length seq combine map nth_error option_map]; try reflexivity.
  - rewrite Nat.add_0_r. reflexivity.
  - rewrite IH. replace (S k + n)%nat with (k + S n)%nat by lia. reflexivity.
Qed.

(** *** Bands *)

Section Bands.
Variable set : instruction_set.
Variable T : target.
Variable hp : memory.
Variables src dst : image.
Variables w h : Z.
Variables from to : list region.
Variable m : mem.
Hypothesis HS : successful_call (converters set) T w h src dst (map (bytes_of hp) from) (map (bytes_of hp) to) m.
Hypothesis Os : own_buffers src.
Hypothesis Od : own_buffers dst.
Hypothesis HB : borrowed (Request w h src dst from to).

Lemma rows_up im y y' p : im = src \/ im = dst -> 0 <= y <= y' -> 0 <= row_start im w y p <= row_start im w y' p.
Proof.
  intros Hi Hy. destruct (success_valid _ _ _ _ _ _ _ _ _ HS) as ((_ & Ns & _) & (_ & Nd & _) & _).
  destruct HS as (_ & _ & W0 & _ & [_ R1] & [_ R2] & _).
  assert (St : 0 <= g_stride (plane_of im w 0 p)) by (destruct Hi as [-> | ->]; eapply stride_nonneg; eauto).
  unfold row_start. split; [apply Z.mul_nonneg_nonneg; [apply plane_rows_nonneg; lia|lia]|].
  apply Z.mul_le_mono_nonneg_r; [lia|apply plane_rows_le; lia].
Qed.

Lemma row_part im y p b R x : im = src \/ im = dst -> 0 <= y -> inside x (part R (row_start im w y p) b) ->
  inside x R /\ row_start im w y p <= x - r_base R < b.
Proof. intros Hi Hy I. apply part_inside; [|exact I]. apply (rows_up im y y p Hi). lia. Qed.

Notation threads := (band_threads src dst w h from to).

(** Where the slices of the bands are. *)
Lemma band_slices im y y' rs r : In r (band_of im w y y' rs) ->
  exists p R, nth_error rs p = Some R /\ r = part R (row_start im w y p) (row_start im w y' p).
Proof.
  intros I. apply In_nth_error in I. destruct I as [p E]. unfold band_of in E.
  rewrite (numbered_nth (fun p r => part r (row_start im w y p) (row_start im w y' p))) in E.
  destruct (nth_error rs p) as [R|] eqn:F; [|discriminate]. exists p, R. split; [exact F|]. injection E as <-. reflexivity.
Qed.
Lemma rest_slices im y rs r : In r (rest_of im w y rs) ->
  exists p R, nth_error rs p = Some R /\ r = part R (row_start im w y p) (r_len R).
Proof.
  intros I. apply In_nth_error in I. destruct I as [p E]. unfold rest_of in E.
  rewrite (numbered_nth (fun p r => part r (row_start im w y p) (r_len r))) in E.
  destruct (nth_error rs p) as [R|] eqn:F; [|discriminate]. exists p, R. split; [exact F|]. injection E as <-. reflexivity.
Qed.

Definition low (rs : list region) (im : image) (y : Z) (r : region) : Prop :=
  exists p R a b, nth_error rs p = Some R /\ r = part R a b /\ row_start im w y p <= a.

Lemma slices_low cuts : forall y qs r, 0 <= y -> cuts_ok src dst h y cuts -> In qs (threads y cuts) ->
  (written_by qs r -> low to dst y r) /\ (used_by qs r -> low from src y r \/ low to dst y r).
Proof.
  induction cuts as [|y' cuts IH]; intros y qs r Hy C I; cbn [band_threads In] in I.
  - destruct I as [<-|[]]. split.
    + intros (q & [<-|[]] & W). cbn [q_to] in W. destruct (rest_slices _ _ _ _ W) as (p & R & E & ->).
      exists p, R, (row_start dst w y p), (r_len R). auto using Z.le_refl.
    + intros (q & [<-|[]] & [W|W]); cbn [q_to q_from] in W; destruct (rest_slices _ _ _ _ W) as (p & R & E & ->); [left|right].
      * exists p, R, (row_start src w y p), (r_len R). auto using Z.le_refl.
      * exists p, R, (row_start dst w y p), (r_len R). auto using Z.le_refl.
  - destruct C as (Hy' & _ & C). destruct I as [<-|I].
    + split.
      * intros (q & [<-|[]] & W). cbn [q_to] in W. destruct (band_slices _ _ _ _ _ W) as (p & R & E & ->).
        exists p, R, (row_start dst w y p), (row_start dst w y' p). auto using Z.le_refl.
      * intros (q & [<-|[]] & [W|W]); cbn [q_to q_from] in W; destruct (band_slices _ _ _ _ _ W) as (p & R & E & ->); [left|right].
        -- exists p, R, (row_start src w y p), (row_start src w y' p). auto using Z.le_refl.
        -- exists p, R, (row_start dst w y p), (row_start dst w y' p). auto using Z.le_refl.
    + destruct (IH y' qs r ltac:(lia) C I) as [A B].
      assert (L : forall rs im, im = src \/ im = dst -> low rs im y' r -> low rs im y r).
      { intros rs im Hi (p & R & a & b & E & -> & La). exists p, R, a, b. split; [exact E|]. split; [reflexivity|].
        pose proof (rows_up im y y' p Hi ltac:(lia)). lia. }
      split; [auto|]. intros U. destruct (B U); auto.
Qed.

Lemma low_inside rs im y r x : im = src \/ im = dst -> 0 <= y -> low rs im y r -> inside x r ->
  exists p R, nth_error rs p = Some R /\ inside x R /\ row_start im w y p <= x - r_base R.
Proof.
  intros Hi Hy (p & R & a & b & E & -> & La) I. exists p, R. split; [exact E|].
  pose proof (rows_up im y y p Hi ltac:(lia)). destruct (part_inside R a b x ltac:(lia) I). split; [assumption|lia].
Qed.

Lemma threads_apart cuts : forall y, 0 <= y -> cuts_ok src dst h y cuts -> independent (threads y cuts).
Proof.
  assert (Same : forall p p' R R' x, nth_error to p = Some R -> nth_error to p' = Some R' -> inside x R -> inside x R' -> p = p').
  { intros p p' R R' x E E' I I'. destruct (Nat.eq_dec p p'); [assumption|]. exfalso.
    exact (proj1 HB p p' R R' E E' n x I I'). }
  assert (Other : forall p p' R R' x, nth_error to p = Some R -> nth_error from p' = Some R' -> inside x R -> inside x R' -> False).
  { intros p p' R R' x E E' I I'. exact (proj2 HB R R' (nth_error_In _ _ E) (nth_error_In _ _ E') x I I'). }
  induction cuts as [|y' cuts IH]; intros y Hy C t u qt qu r r' Et Eu Ne W U x Ix Ix'; cbn [band_threads] in *.
  - destruct t as [|[|t]]; try discriminate. destruct u as [|[|u]]; try discriminate. tauto.
  - destruct C as (Hy' & Hc & C).
    assert (F : forall r, In r (band_of dst w y y' to) -> inside x r ->
      exists p R, nth_error to p = Some R /\ inside x R /\ x - r_base R < row_start dst w y' p).
    { intros r0 I0 Ix0. destruct (band_slices _ _ _ _ _ I0) as (p & R & E & ->). exists p, R. split; [exact E|].
      destruct (row_part dst y p _ R x ltac:(auto) Hy Ix0). split; [assumption|lia]. }
    destruct t as [|t], u as [|u]; cbn [nth_error] in Et, Eu.
    + tauto.
    + injection Et as <-. destruct W as (q & [<-|[]] & W). cbn [q_to] in W. destruct (F r W Ix) as (p & R & E & IR & L).
      destruct (slices_low cuts y' qu r' ltac:(lia) C (nth_error_In _ _ Eu)) as [_ K].
      destruct (K U) as [K1|K1].
      * destruct (low_inside from src y' r' x ltac:(auto) ltac:(lia) K1 Ix') as (p' & R' & E' & IR' & _). eauto.
      * destruct (low_inside to dst y' r' x ltac:(auto) ltac:(lia) K1 Ix') as (p' & R' & E' & IR' & L').
        pose proof (Same _ _ _ _ _ E E' IR IR') as <-. rewrite E in E'. injection E' as <-. lia.
    + injection Eu as <-.
      destruct (slices_low cuts y' qt r ltac:(lia) C (nth_error_In _ _ Et)) as [K _].
      destruct (low_inside to dst y' r x ltac:(auto) ltac:(lia) (K W) Ix) as (p & R & E & IR & L).
      destruct U as (q & [<-|[]] & [U|U]); cbn [q_from q_to] in U.
      * destruct (band_slices _ _ _ _ _ U) as (p' & R' & E' & ->).
        destruct (row_part src y p' _ R' x ltac:(auto) Hy Ix'). eauto.
      * destruct (F r' U Ix') as (p' & R' & E' & IR' & L').
        pose proof (Same _ _ _ _ _ E E' IR IR') as <-. rewrite E in E'. injection E' as <-. lia.
    + refine (IH y' ltac:(lia) C t u qt qu r r' Et Eu _ W U x Ix Ix'). congruence.
Qed.

Lemma parts_borrowed q y f1 f2 : 0 <= y ->
  q_from q = map (fun '(p, r) => part r (row_start src w y p) (f1 p r)) (numbered_regions from) ->
  q_to q = map (fun '(p, r) => part r (row_start dst w y p) (f2 p r)) (numbered_regions to) -> borrowed q.
Proof.
  intros Hy E1 E2. split.
  - intros i j r r' Hi Hj Ne x I I'. rewrite E2 in Hi, Hj.
    rewrite (numbered_nth (fun p r => part r (row_start dst w y p) (f2 p r))) in Hi, Hj.
    destruct (nth_error to i) as [R|] eqn:Ei; [|discriminate]. destruct (nth_error to j) as [R'|] eqn:Ej; [|discriminate].
    injection Hi as <-. injection Hj as <-.
    destruct (row_part dst y i _ R x ltac:(auto) Hy I), (row_part dst y j _ R' x ltac:(auto) Hy I').
    exact (proj1 HB i j R R' Ei Ej Ne x ltac:(assumption) ltac:(assumption)).
  - intros r r' Hi Hj x I I'. apply In_nth_error in Hi, Hj. destruct Hi as [i Hi], Hj as [j Hj]. rewrite E2 in Hi. rewrite E1 in Hj.
    rewrite (numbered_nth (fun p r => part r (row_start dst w y p) (f2 p r))) in Hi.
    rewrite (numbered_nth (fun p r => part r (row_start src w y p) (f1 p r))) in Hj.
    destruct (nth_error to i) as [R|] eqn:Ei; [|discriminate]. destruct (nth_error from j) as [R'|] eqn:Ej; [|discriminate].
    injection Hi as <-. injection Hj as <-.
    destruct (row_part dst y i _ R x ltac:(auto) Hy I), (row_part src y j _ R' x ltac:(auto) Hy I').
    exact (proj2 HB R R' (nth_error_In _ _ Ei) (nth_error_In _ _ Ej) x ltac:(assumption) ltac:(assumption)).
Qed.

Lemma threads_borrowed cuts : forall y qs q, 0 <= y -> cuts_ok src dst h y cuts -> In qs (threads y cuts) -> In q qs -> borrowed q.
Proof.
  induction cuts as [|y' cuts IH]; intros y qs q Hy C I Iq; cbn [band_threads In] in I.
  - destruct I as [<-|[]]. destruct Iq as [<-|[]].
    apply (parts_borrowed _ y (fun p r => r_len r) (fun p r => r_len r) Hy); reflexivity.
  - destruct C as (Hy' & _ & C). destruct I as [<-|I]; [|eapply (IH y'); eauto; lia]. destruct Iq as [<-|[]].
    apply (parts_borrowed _ y (fun p r => row_start src w y' p) (fun p r => row_start dst w y' p) Hy); reflexivity.
Qed.

(** Each call on its own succeeds. *)
Definition bands_succeed (calls : list (list request)) : Prop :=
  forall qs q, In qs calls -> In q qs -> exists m', successful_call (converters set) T w (q_h q) src dst
    (map (bytes_of hp) (q_from q)) (map (bytes_of hp) (q_to q)) m'.

Lemma single_threads cuts : forall y qs, In qs (threads y cuts) -> exists q, qs = [q] /\ q_w q = w /\ q_src q = src /\ q_dst q = dst.
Proof.
  induction cuts as [|y' cuts IH]; intros y qs I; cbn [band_threads In] in I.
  - destruct I as [<-|[]]. eauto.
  - destruct I as [<-|I]; eauto.
Qed.

Lemma bands_alone cuts y : 0 <= y -> cuts_ok src dst h y cuts -> bands_succeed (threads y cuts) ->
  forall qs, In qs (threads y cuts) -> exists ans e, alone set T hp qs ans e.
Proof.
  intros Hy C HK qs I. destruct (single_threads cuts y qs I) as (q & -> & Ew & Es & Ed).
  destruct (HK [q] q I (or_introl eq_refl)) as (m' & _ & _ & _ & _ & _ & _ & E).
  apply (call_alone set T hp q [] Success m').
  - apply (threads_borrowed cuts y [q] q Hy C I). left. reflexivity.
  - rewrite Ew, Es, Ed. exact E.
  - intros hp1 _. exists [], hp1. constructor. reflexivity.
Qed.

(** The byte that belongs at an address. *)
Lemma bands_cover cuts : forall y p R a, 0 <= y < h -> cut_ok src dst y -> cuts_ok src dst h y cuts ->
  bands_succeed (threads y cuts) ->
  nth_error to p = Some R -> inside a R -> row_start dst w y p <= a - r_base R ->
  exists t qs q r, nth_error (threads y cuts) t = Some qs /\ In q qs /\ In r (q_to q) /\ inside a r /\
    forall ans e, alone set T hp qs ans e -> e a = nth (Z.to_nat (a - r_base R)) (nth p (dsts m) []) 0.
Proof.
  assert (Val : forall q m' ans e y f p R a, q_w q = w -> q_src q = src -> q_dst q = dst ->
    (forall p, 0 <= row_start dst w y p) ->
    q_to q = map (fun '(p, r) => part r (row_start dst w y p) (f p r)) (numbered_regions to) ->
    convert (converters set) T w (q_h q) src dst (map (bytes_of hp) (q_from q)) (map (bytes_of hp) (q_to q)) = Ok Success m' ->
    alone set T hp [q] ans e -> nth_error to p = Some R -> inside a R -> row_start dst w y p <= a - r_base R < f p R ->
    e a = nth (Z.to_nat (a - r_base R - row_start dst w y p)) (nth p (dsts m') []) 0).
  { intros q m' ans e y f p R a Ew Es Ed P0 Eq EC A Ep I L.
    inversion A as [|? ? ? o mm hp1 ans' e' C D O A1]; subst. inversion A1 as [? ? Ee|]; subst.
    rewrite EC in C. injection C as <- <-. rewrite Ee. rewrite <- D. rewrite nth_bytes.
    assert (N : nth p (q_to q) (Region 0 0) = part R (row_start (q_dst q) (q_w q) y p) (f p R)).
    { apply nth_error_nth. rewrite Eq. rewrite (numbered_nth (fun p r => part r (row_start (q_dst q) (q_w q) y p) (f p r))).
      rewrite Ep. reflexivity. }
    rewrite N. specialize (P0 p). unfold inside in I. rewrite bytes_at by (cbn [part r_len]; lia).
    cbn [part r_base]. f_equal. lia. }
  induction cuts as [|y' cuts IH]; intros y p R a Hy Hc C HK Ep I L; cbn [band_threads] in *.
  - exists 0%nat. eexists. eexists. exists (part R (row_start dst w y p) (r_len R)).
    split; [reflexivity|]. split; [left; reflexivity|]. cbn [q_to].
    split. { eapply nth_error_In with (n := p). unfold rest_of. rewrite (numbered_nth (fun p r => part r (row_start dst w y p) (r_len r))), Ep. reflexivity. }
    split. { apply inside_part; [exact I|]. unfold inside in I. lia. }
    intros ans e A. set (q := Request w (h - y) src dst (rest_of src w y from) (rest_of dst w y to)) in *.
    destruct (HK [q] q (or_introl eq_refl) (or_introl eq_refl)) as (m' & S').
    pose proof (proj2 (proj2 (proj2 (proj2 (proj2 (proj2 S')))))) as EC.
    rewrite (Val q m' ans e y (fun p r => r_len r) p R a eq_refl eq_refl eq_refl (fun p => proj1 (rows_up dst y y p ltac:(auto) ltac:(lia))) eq_refl EC A Ep I)
      by (unfold inside in I; lia).
    cbn [q q_h q_from q_to] in S'. rewrite !rest_bytes in S' by (intros p'; apply (rows_up _ y y p'); auto; lia).
    rewrite (rest_call set T T w h y src dst _ _ m m' HS S' Os Od ltac:(lia) Hc).
    rewrite rest_nth, nth_skipn. f_equal. pose proof (rows_up dst y y p ltac:(auto) ltac:(lia)). lia.
  - destruct C as (Hy' & Hc' & C).
    destruct (Z.lt_ge_cases (a - r_base R) (row_start dst w y' p)) as [Lt|Ge].
    + exists 0%nat. eexists. eexists. exists (part R (row_start dst w y p) (row_start dst w y' p)).
      split; [reflexivity|]. split; [left; reflexivity|]. cbn [q_to].
      split. { eapply nth_error_In with (n := p). unfold band_of. rewrite (numbered_nth (fun p r => part r (row_start dst w y p) (row_start dst w y' p))), Ep. reflexivity. }
      split. { apply inside_part; [exact I|lia]. }
      intros ans e A. set (q := Request w (y' - y) src dst (band_of src w y y' from) (band_of dst w y y' to)) in *.
      destruct (HK [q] q (or_introl eq_refl) (or_introl eq_refl)) as (m' & S').
      pose proof (proj2 (proj2 (proj2 (proj2 (proj2 (proj2 S')))))) as EC.
      rewrite (Val q m' ans e y (fun p r => row_start dst w y' p) p R a eq_refl eq_refl eq_refl (fun p => proj1 (rows_up dst y y p ltac:(auto) ltac:(lia))) eq_refl EC A Ep I)
        by lia.
      cbn [q q_h q_from q_to] in S'. rewrite !band_bytes in S' by (intros p'; apply (rows_up _ y y' p'); auto; lia).
      rewrite (band_call set T T w h y y' src dst _ _ m m' HS S' Os Od ltac:(lia) ltac:(lia) Hc).
      rewrite band_nth. pose proof (rows_up dst y y p ltac:(auto) ltac:(lia)).
      rewrite nth_firstn by lia. rewrite nth_skipn. f_equal. lia.
    + destruct (IH y' p R a ltac:(lia) Hc' C) as (t & qs & q & r & Et & K); auto.
      { intros qs q Iq. apply HK. right. exact Iq. }
      exists (S t), qs, q, r. split; [exact Et|exact K].
Qed.

Lemma bands_by_threads cuts sch : cuts_ok src dst h 0 cuts -> bands_succeed (threads 0 cuts) ->
  let st := interleave set T sch (start hp (threads 0 cuts)) in
  (forall th, In th (snd st) -> idle th) ->
  map (bytes_of (fst st)) to = dsts m /\ forall th, In th (snd st) -> answers th = [Answer Success].
Proof.
  intros C HK st Hidle.
  assert (H0 : 0 < h) by (destruct HS as (_ & _ & _ & H0 & _); exact H0).
  pose proof (threads_apart cuts 0 ltac:(lia) C) as HI.
  assert (HBo : forall qs q, In qs (threads 0 cuts) -> In q qs -> borrowed q) by (intros; eapply threads_borrowed; eauto; lia).
  pose proof (bands_alone cuts 0 ltac:(lia) C HK) as HA.
  destruct (success_conv _ _ _ _ _ _ _ _ _ HS) as [_ (L & _)]. destruct (map_length_eq _ _ L) as [M1 M2].
  split.
  - apply nth_ext with (d := []) (d' := []); [rewrite map_length, M1, map_length; reflexivity|].
    intros p Hp. rewrite map_length in Hp. rewrite nth_bytes.
    pose proof (nth_error_nth' to (Region 0 0) Hp) as Ep. set (R := nth p to (Region 0 0)) in *.
    assert (LR : length (nth p (dsts m) []) = Z.to_nat (r_len R)).
    { rewrite M2, nth_bytes. fold R. pose proof (bytes_len hp R) as Q. unfold zlen in Q. lia. }
    pose proof (bytes_len (fst st) R) as Q. unfold zlen in Q.
    apply nth_ext with (d := 0) (d' := 0); [lia|]. intros n Hn.
    replace n with (Z.to_nat (Z.of_nat n)) at 1 by lia. rewrite bytes_at by lia.
    destruct (bands_cover cuts 0 p R (r_base R + Z.of_nat n) ltac:(lia)) as (t & qs & q & r & Et & Iq & Ir & Ia & V); auto.
    + right; left; reflexivity.
    + unfold inside. lia.
    + unfold row_start. replace (plane_rows (i_pf dst) p 0) with 0; [lia|]. unfold plane_rows. destruct (i_pf dst), p; reflexivity.
    + destruct (HA qs (nth_error_In _ _ Et)) as (ans & e & A). specialize (V ans e A).
      destruct (thread_undisturbed set T hp (threads 0 cuts) HBo HI t qs ans e sch Et A) as (th & rst & Eth & _ & K).
      fold st in Eth, K. destruct (K (Hidle th (nth_error_In _ _ Eth))) as [_ K2].
      rewrite (K2 r) by (auto; exists q; auto). rewrite V. f_equal. lia.
  - intros th Ith. apply In_nth_error in Ith. destruct Ith as [t Eth].
    assert (F : length (snd st) = length (threads 0 cuts)) by (apply (interleave_mine set T (threads 0 cuts) HI sch); [apply start_fits|apply start_mine]).
    assert (Lt : (t < length (threads 0 cuts))%nat) by (rewrite <- F; apply nth_error_Some; congruence).
    destruct (nth_error (threads 0 cuts) t) as [qs|] eqn:Et; [|apply nth_error_None in Et; lia].
    pose proof (nth_error_In _ _ Et) as Iqs.
    destruct (HA qs Iqs) as (ans & e & A).
    destruct (thread_undisturbed set T hp (threads 0 cuts) HBo HI t qs ans e sch Et A) as (th' & rst & Eth' & _ & K).
    fold st in Eth', K. rewrite Eth in Eth'. injection Eth' as <-.
    destruct (K (Hidle th (nth_error_In _ _ Eth))) as [K1 _]. rewrite K1.
    destruct (single_threads cuts 0 qs Iqs) as (q & -> & Ew & Es & Ed).
    destruct (HK [q] q Iqs (or_introl eq_refl)) as (m' & _ & _ & _ & _ & _ & _ & EC).
    inversion A as [|? ? ? o mm hp1 ans' e' CC D O A1]; subst ans. inversion A1; subst ans'.
    rewrite Ew, Es, Ed, EC in CC. injection CC as <- _. reflexivity.
Qed.
End Bands.

(** *** The statements *)

Lemma undisturbed set T hp calls : threads_ok set T hp calls ->
  forall t qs ans e schedule, nth_error calls t = Some qs -> alone set T hp qs ans e ->
  let st := interleave set T schedule (start hp calls) in
  exists th rest, nth_error (snd st) t = Some th /\ map Answer ans = answers th ++ rest /\
    (idle th -> answers th = map Answer ans /\ forall r a, used_by qs r -> inside a r -> fst st a = e a).
Proof. intros (B & I & _) t qs ans e sch. apply thread_undisturbed; assumption. Qed.

Lemma finishes set T hp calls : threads_ok set T hp calls ->
  forall t qs, nth_error calls t = Some qs ->
  exists n, forall schedule, (n <= count_occ Nat.eq_dec schedule t)%nat ->
    exists th, nth_error (snd (interleave set T schedule (start hp calls))) t = Some th /\ idle th.
Proof.
  intros (B & I & A) t qs E. destruct (A qs (nth_error_In _ _ E)) as (ans & e & Al).
  exact (thread_finishes set T hp calls B I t qs ans e E Al).
Qed.

Lemma nothing_else set T hp calls : threads_ok set T hp calls ->
  forall schedule a, (forall qs r, In qs calls -> written_by qs r -> ~ inside a r) ->
  fst (interleave set T schedule (start hp calls)) a = hp a.
Proof. intros (_ & I & _) sch a. apply rest_unchanged. exact I. Qed.

Lemma no_data_race set T hp calls : threads_ok set T hp calls ->
  forall schedule t u tht thu w a, t <> u ->
  nth_error (snd (interleave set T schedule (start hp calls))) t = Some tht ->
  nth_error (snd (interleave set T schedule (start hp calls))) u = Some thu ->
  next_access T tht = Some (true, a) -> next_access T thu = Some (w, a) -> False.
Proof. intros (B & I & A) sch t u tht thu w a. apply no_race; assumption. Qed.

Lemma single_calls set T hp calls :
  (forall qs q, In qs calls -> In q qs -> borrowed q) -> independent calls ->
  (forall qs, In qs calls -> exists q o m, qs = [q] /\
     convert (converters set) T (q_w q) (q_h q) (q_src q) (q_dst q)
       (map (bytes_of hp) (q_from q)) (map (bytes_of hp) (q_to q)) = Ok o m) ->
  threads_ok set T hp calls.
Proof.
  intros B I A. split; [exact B|]. split; [exact I|]. intros qs Iq.
  destruct (A qs Iq) as (q & o & m & -> & E). apply (call_alone set T hp q [] o m); [|exact E|].
  - apply (B [q] q Iq). left. reflexivity.
  - intros hp1 _. exists [], hp1. constructor. reflexivity.
Qed.

Lemma one_picture set T hp src dst w h from to m cuts schedule :
  successful_call (converters set) T w h src dst (map (bytes_of hp) from) (map (bytes_of hp) to) m ->
  own_buffers src -> own_buffers dst -> borrowed (Request w h src dst from to) ->
  cuts_ok src dst h 0 cuts ->
  (forall qs q, In qs (band_threads src dst w h from to 0 cuts) -> In q qs ->
     exists m', successful_call (converters set) T w (q_h q) src dst
       (map (bytes_of hp) (q_from q)) (map (bytes_of hp) (q_to q)) m') ->
  let st := interleave set T schedule (start hp (band_threads src dst w h from to 0 cuts)) in
  (forall th, In th (snd st) -> idle th) ->
  map (bytes_of (fst st)) to = dsts m /\ forall th, In th (snd st) -> answers th = [Answer Success].
Proof. intros HS Os Od HB C HK. exact (bands_by_threads set T hp src dst w h from to m HS Os Od HB cuts schedule C HK). Qed.

Lemma bands_are_threads set T hp src dst w h from to m cuts :
  successful_call (converters set) T w h src dst (map (bytes_of hp) from) (map (bytes_of hp) to) m ->
  borrowed (Request w h src dst from to) -> own_buffers src -> own_buffers dst ->
  cuts_ok src dst h 0 cuts ->
  (forall qs q, In qs (band_threads src dst w h from to 0 cuts) -> In q qs ->
     exists m', successful_call (converters set) T w (q_h q) src dst
       (map (bytes_of hp) (q_from q)) (map (bytes_of hp) (q_to q)) m') ->
  threads_ok set T hp (band_threads src dst w h from to 0 cuts).
Proof.
  intros HS HB Os Od C HK. split; [|split].
  - intros qs q. apply (threads_borrowed set T hp src dst w h from to m HS Os Od HB cuts 0); [lia|exact C].
  - apply (threads_apart set T hp src dst w h from to m HS Os Od HB cuts 0); [lia|exact C].
  - apply (bands_alone set T hp src dst w h from to m HS Os Od HB cuts 0); [lia|exact C|exact HK].
Qed.
