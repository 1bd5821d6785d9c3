(** What the accesses of a run determine. *)
From Coq Require Import ZArith List Bool Lia ZifyBool ZifyNat.
Import ListNotations.
From Verif Require Import Base Fmt Wrappers CpuInfo Lib Sets Spec SetSpec ApiSpec Api Exec DataSpec DataFacts ResultFacts FinalProofs PropFacts AcceptSpec AcceptFacts ThreadFacts Trace TraceSpec TraceFacts.
Open Scope Z_scope.

Lemma traced_run {A} T (c : M A) : forall m, snd (traced c T m) = run c T m.
Proof.
  induction c as [a|f|A B c IH k IHk|A k IH|A r k IH|A r k IH|A s i k IH|A s i v k IH]; intros m; cbn [traced run]; auto.
  - specialize (IH m). destruct (traced c T m) as [l [a m'|f]]; cbn [snd] in IH; rewrite <- IH; [|reflexivity].
    specialize (IHk a m'). destruct (traced (k a) T m'). exact IHk.
  - destruct (_ && _); [apply IH|]. destruct (checked T); [reflexivity|apply IH].
  - destruct (_ && _); [apply IH|]. destruct (checked T); [reflexivity|apply IH].
  - cbv zeta. destruct (_ && _); [|reflexivity]. specialize (IH (nth (Z.to_nat (s_off s + i)) (plane_bytes m (s_plane s)) 0) m).
    destruct (traced _ T m). exact IH.
  - cbv zeta. destruct (s_plane s) as [n|n]; [reflexivity|]. destruct (_ && _); [|reflexivity].
    match goal with |- context [traced _ T ?m'] => specialize (IH tt m'); destruct (traced (k tt) T m') end. exact IH.
Qed.
Lemma traced_eq {A} T (c : M A) m : traced c T m = (fst (traced c T m), run c T m).
Proof. rewrite <- traced_run. destruct (traced c T m). reflexivity. Qed.

(** ** Reads *)
Lemma calm_traced {A} T (c : M A) : forall P m, calm c P ->
  (forall p a, In (Reads p a) (fst (traced c T m)) -> exists n, p = Src n) /\
  (forall a m', run c T m = Ok a m' -> P a).
Proof.
  induction c as [a|f|A B c IH k IHk|A k IH|A r k IH|A r k IH|A s i k IH|A s i v k IH]; intros P m C; cbn [traced run calm] in *.
  - split; [intros p x []|]. intros a' m' E. injection E as <- <-. exact C.
  - split; [intros p x []|discriminate].
  - destruct (IH _ m C) as [R1 R2]. rewrite (traced_eq T c m).
    destruct (run c T m) as [a m'|f]; [|split; [exact R1|discriminate]].
    destruct (IHk a P m' (R2 _ _ eq_refl)) as [S1 S2]. rewrite (traced_eq T (k a) m'). split; [|exact S2].
    intros p x. cbn [fst]. rewrite in_app_iff. intros [I|I]; [exact (R1 _ _ I)|exact (S1 _ _ I)].
  - exact (IH T P m (C T)).
  - destruct (_ && _); [exact (IH _ P m (C _))|]. destruct (checked T); [split; [intros p x []|discriminate]|exact (IH _ P m (C _))].
  - destruct (_ && _); [exact (IH _ P m (C _))|]. destruct (checked T); [split; [intros p x []|discriminate]|exact (IH _ P m (C _))].
  - destruct C as [[n En] C]. cbv zeta.
    destruct (_ && _).
    + destruct (IH (nth (Z.to_nat (s_off s + i)) (plane_bytes m (s_plane s)) 0) P m (C _)) as [S1 S2]. rewrite traced_eq. split; [|exact S2].
      intros p x [E|I]; [injection E as <- _; exists n; exact En|exact (S1 _ _ I)].
    + split; [|discriminate]. intros p x [E|[]]. injection E as <- _. exists n. exact En.
  - cbv zeta. destruct (s_plane s) as [n|n]; [split; [|discriminate]; intros p x [E|[]]; discriminate E|].
    destruct (_ && _); [|split; [|discriminate]; intros p x [E|[]]; discriminate E].
    match goal with |- context [traced _ T ?m'] => destruct (IH tt P m' C) as [S1 S2] end. rewrite traced_eq. split; [|exact S2].
    intros p x [E|I]; [discriminate E|exact (S1 _ _ I)].
Qed.

(** ** The same bytes at the places that are read *)
Definition byte_at (m : mem) (p : plane) (a : Z) : Z := nth (Z.to_nat a) (plane_bytes m p) 0.
Definition shape (m m' : mem) : Prop := same_sizes (srcs m) (srcs m') /\ same_sizes (dsts m) (dsts m').

Lemma sizes_nth l : forall l' n, same_sizes l l' -> zlen (nth n l []) = zlen (nth n l' []).
Proof.
  unfold same_sizes. induction l as [|b l IH]; intros [|b' l'] n H; try discriminate H; [reflexivity|].
  cbn [map] in H. injection H as H1 H2. destruct n as [|n]; cbn [nth]; [unfold zlen; rewrite H1; reflexivity|apply IH, H2].
Qed.
Lemma shape_plane m m' p : shape m m' -> zlen (plane_bytes m p) = zlen (plane_bytes m' p).
Proof. intros [H1 H2]. destruct p; apply sizes_nth; assumption. Qed.
Lemma sizes_upd l : forall l' n b b', same_sizes l l' -> length b = length b' -> same_sizes (upd l n b) (upd l' n b').
Proof.
  unfold same_sizes. induction l as [|c l IH]; intros [|c' l'] n b b' H L; try discriminate H; [destruct n; reflexivity|].
  cbn [map] in H. injection H as H1 H2. destruct n as [|n]; cbn [upd map]; [rewrite L, H2; reflexivity|rewrite H1, (IH l' n b b' H2 L); reflexivity].
Qed.
Lemma nth_upd_nth {A} (l : list A) n k v d : nth k (upd l n v) d = if (n =? k)%nat && (n <? length l)%nat then v else nth k l d.
Proof.
  destruct (Nat.eqb_spec n k) as [->|N]; [|apply upd_nth_other, N].
  destruct (Nat.ltb_spec k (length l)) as [L|L]; [apply upd_nth_same, L|].
  rewrite !nth_overflow; rewrite ?upd_len; auto.
Qed.
Definition put (m : mem) (n : nat) (a v : Z) : mem := Mem (srcs m) (upd (dsts m) n (upd (nth n (dsts m) []) (Z.to_nat a) v)).
Lemma put_at m n a v p x : 0 <= a < zlen (nth n (dsts m) []) -> 0 <= x ->
  byte_at (put m n a v) p x = match p with Dst k => if (n =? k)%nat && (a =? x) then v else byte_at m p x | Src _ => byte_at m p x end.
Proof.
  intros H X. assert (L : (n < length (dsts m))%nat).
  { destruct (Nat.ltb_spec n (length (dsts m))); [assumption|]. rewrite nth_overflow in H by assumption. cbn in H. lia. }
  unfold byte_at, put. destruct p as [k|k]; cbn [plane_bytes srcs dsts]; [reflexivity|].
  rewrite nth_upd_nth. destruct (Nat.eqb_spec n k) as [<-|N]; cbn [andb]; [|reflexivity].
  destruct (Nat.ltb_spec n (length (dsts m))); [|lia]. rewrite nth_upd_nth. unfold zlen in H.
  destruct (Nat.ltb_spec (Z.to_nat a) (length (nth n (dsts m) []))); [|lia].
  destruct (Nat.eqb_spec (Z.to_nat a) (Z.to_nat x)), (Z.eqb_spec a x); try lia; reflexivity.
Qed.
Lemma put_shape m m' n a v : shape m m' -> shape (put m n a v) (put m' n a v).
Proof.
  intros [H1 H2]. split; [exact H1|]. apply sizes_upd; [exact H2|]. rewrite !upd_len.
  pose proof (sizes_nth _ _ n H2) as E. unfold zlen in E. lia.
Qed.

Definition same_end {A} (m m' : mem) (r r' : res A) : Prop :=
  match r, r' with
  | Ok a m1, Ok a' m1' => a = a' /\ shape m1 m1' /\
      forall p x, 0 <= x -> byte_at m p x = byte_at m' p x -> byte_at m1 p x = byte_at m1' p x
  | Fault f, Fault f' => f = f'
  | _, _ => False
  end.
Lemma replay {A} T (c : M A) : forall m m', shape m m' ->
  (forall p x, In (Reads p x) (fst (traced c T m)) -> 0 <= x -> byte_at m p x = byte_at m' p x) ->
  fst (traced c T m') = fst (traced c T m) /\ same_end m m' (run c T m) (run c T m').
Proof.
  induction c as [a|f|A B c IH k IHk|A k IH|A r k IH|A r k IH|A s i k IH|A s i v k IH]; intros m m' S R; cbn [traced run] in *.
  - split; [reflexivity|]. cbn [same_end]. auto.
  - split; reflexivity.
  - rewrite (traced_eq T c m) in *. rewrite (traced_eq T c m').
    assert (R1 : forall p x, In (Reads p x) (fst (traced c T m)) -> 0 <= x -> byte_at m p x = byte_at m' p x).
    { intros p x I. apply R. destruct (run c T m); [|exact I].
      destruct (traced (k a) T m0). cbn [fst]. apply in_or_app. left. exact I. }
    destruct (IH m m' S R1) as [E1 E2]. rewrite E1.
    destruct (run c T m) as [a m1|f], (run c T m') as [a' m1'|f']; try contradiction; [|split; [reflexivity|exact E2]].
    destruct E2 as (<- & S1 & G). rewrite (traced_eq T (k a) m1) in *. rewrite (traced_eq T (k a) m1'). cbn [fst] in *.
    assert (R2 : forall p x, In (Reads p x) (fst (traced (k a) T m1)) -> 0 <= x -> byte_at m1 p x = byte_at m1' p x).
    { intros p x I X. apply G; [exact X|]. apply R; [|exact X]. apply in_or_app. right. exact I. }
    destruct (IHk a m1 m1' S1 R2) as [F1 F2]. rewrite F1. split; [reflexivity|].
    destruct (run (k a) T m1) as [b m2|f], (run (k a) T m1') as [b' m2'|f']; try contradiction; [|exact F2].
    destruct F2 as (<- & S2 & G2). cbn [same_end]. auto.
  - apply IH; assumption.
  - destruct (_ && _); [apply IH; assumption|]. destruct (checked T); [split; reflexivity|apply IH; assumption].
  - destruct (_ && _); [apply IH; assumption|]. destruct (checked T); [split; reflexivity|apply IH; assumption].
  - cbv zeta in *. rewrite <- (shape_plane m m' _ S).
    destruct (_ && _) eqn:G; [|split; reflexivity].
    assert (E : nth (Z.to_nat (s_off s + i)) (plane_bytes m (s_plane s)) 0 = nth (Z.to_nat (s_off s + i)) (plane_bytes m' (s_plane s)) 0).
    { apply (R (s_plane s) (s_off s + i)); [|lia]. rewrite traced_eq. left. reflexivity. }
    rewrite <- E. rewrite (traced_eq T _ m) in R. rewrite (traced_eq T _ m), (traced_eq T _ m'). cbn [fst] in *.
    destruct (IH (nth (Z.to_nat (s_off s + i)) (plane_bytes m (s_plane s)) 0) m m' S) as [F1 F2].
    { intros p x I. apply R. right. exact I. }
    rewrite F1. split; [reflexivity|exact F2].
  - cbv zeta in *. destruct (s_plane s) as [n|n] eqn:P; [split; reflexivity|].
    rewrite <- (sizes_nth _ _ n (proj2 S)).
    destruct (_ && _) eqn:G; [|split; reflexivity].
    change (Mem (srcs m) _) with (put m n (s_off s + i) v) in *. change (Mem (srcs m') _) with (put m' n (s_off s + i) v) in *.
    rewrite (traced_eq T _ (put m _ _ _)) in R. rewrite (traced_eq T _ (put m _ _ _)), (traced_eq T _ (put m' _ _ _)). cbn [fst] in *.
    assert (B : 0 <= s_off s + i < zlen (nth n (dsts m) [])) by lia.
    assert (B' : 0 <= s_off s + i < zlen (nth n (dsts m') [])) by (rewrite <- (sizes_nth _ _ n (proj2 S)); lia).
    assert (K : forall p x, 0 <= x -> byte_at m p x = byte_at m' p x -> byte_at (put m n (s_off s + i) v) p x = byte_at (put m' n (s_off s + i) v) p x).
    { intros p x X E. rewrite !put_at by assumption. rewrite E. reflexivity. }
    destruct (IH tt _ _ (put_shape m m' n (s_off s + i) v S)) as [F1 F2].
    { intros p x I X. apply K; [exact X|]. apply R; [|exact X]. right. exact I. }
    rewrite F1. split; [reflexivity|].
    destruct (run (k tt) T _) as [b m2|f], (run (k tt) T (put m' _ _ _)) as [b' m2'|f']; try contradiction; [|exact F2].
    destruct F2 as (<- & S2 & G2). cbn [same_end]. auto.
Qed.

(** ** Writes *)
Lemma last_app l l' n a : last_written (l ++ l') n a = match last_written l' n a with Some v => Some v | None => last_written l n a end.
Proof.
  induction l as [|x l IH]; cbn [app last_written]; [destruct (last_written l' n a); reflexivity|].
  rewrite IH. destruct (last_written l' n a); [reflexivity|]. reflexivity.
Qed.
Lemma traced_end {A} T (c : M A) : forall m a m', run c T m = Ok a m' ->
  let l := fst (traced c T m) in
  shape m m' /\ srcs m' = srcs m /\
  (forall p x v, In (Writes p x v) l -> exists n, p = Dst n /\ 0 <= x < zlen (nth n (dsts m) [])) /\
  (forall p x, In (Reads p x) l -> 0 <= x < zlen (plane_bytes m p)) /\
  (forall n x, 0 <= x -> byte_at m' (Dst n) x = match last_written l n x with Some v => v | None => byte_at m (Dst n) x end).
Proof.
  assert (Sh : forall m, shape m m) by (intros m; split; reflexivity).
  induction c as [a|f|A B c IH k IHk|A k IH|A r k IH|A r k IH|A s i k IH|A s i v k IH]; intros m b m' E; cbn [traced run] in *; cbv zeta.
  - injection E as <- <-. split; [apply Sh|]. split; [reflexivity|]. split; [intros p x v []|]. split; [intros p x []|]. reflexivity.
  - discriminate E.
  - rewrite (traced_eq T c m). specialize (IH m). destruct (run c T m) as [a m1|f]; [|discriminate E].
    destruct (IH a m1 eq_refl) as (S1 & R1 & W1 & D1 & B1). destruct (IHk a m1 b m' E) as (S2 & R2 & W2 & D2 & B2).
    rewrite (traced_eq T (k a) m1). cbn [fst] in *.
    split; [destruct S1, S2; split; eapply eq_trans; eauto|]. split; [congruence|].
    split; [|split].
    + intros p x v. rewrite in_app_iff. intros [I|I]; [exact (W1 _ _ _ I)|].
      destruct (W2 _ _ _ I) as (n & P & H). exists n. split; [exact P|]. rewrite (sizes_nth _ _ n (proj2 S1)). exact H.
    + intros p x. rewrite in_app_iff. intros [I|I]; [exact (D1 _ _ I)|].
      rewrite (shape_plane _ _ p S1). exact (D2 _ _ I).
    + intros n x X. rewrite B2, last_app by exact X. destruct (last_written (fst (traced (k a) T m1)) n x); [reflexivity|]. apply B1, X.
  - apply (IH T m b m' E).
  - destruct (_ && _); [apply (IH _ m b m' E)|]. destruct (checked T); [discriminate E|apply (IH _ m b m' E)].
  - destruct (_ && _); [apply (IH _ m b m' E)|]. destruct (checked T); [discriminate E|apply (IH _ m b m' E)].
  - cbv zeta in E. destruct (_ && _) eqn:G; [|discriminate E].
    destruct (IH _ m b m' E) as (S1 & R1 & W1 & D1 & B1). rewrite traced_eq. cbn [fst].
    split; [exact S1|]. split; [exact R1|]. split; [|split].
    + intros p x v [I|I]; [discriminate I|exact (W1 _ _ _ I)].
    + intros p x [I|I]; [injection I as <- <-; lia|exact (D1 _ _ I)].
    + intros n x X. cbn [last_written]. rewrite B1 by exact X. destruct (last_written _ n x); reflexivity.
  - cbv zeta in E. destruct (s_plane s) as [n|n] eqn:P; [discriminate E|].
    destruct (_ && _) eqn:G; [|discriminate E]. 
    change (Mem (srcs m) _) with (put m n (s_off s + i) v) in *.
    assert (B : 0 <= s_off s + i < zlen (nth n (dsts m) [])) by lia.
    destruct (IH tt _ b m' E) as (S1 & R1 & W1 & D1 & B1). rewrite traced_eq. cbn [fst].
    assert (S0 : shape m (put m n (s_off s + i) v)).
    { split; [reflexivity|]. unfold same_sizes, put. cbn [dsts]. clear. revert n. generalize (dsts m) as l.
      intros l n. assert (U : forall l n b, length b = length (nth n l []) -> map (@length Z) l = map (@length Z) (upd l n b)).
      { clear. induction l as [|c l IH]; intros n b L; [destruct n; reflexivity|]. destruct n as [|n]; cbn [upd map nth] in *; [rewrite L; reflexivity|]. f_equal. apply IH, L. }
      apply U, upd_len. }
    split; [destruct S0, S1; split; eapply eq_trans; eauto|]. split; [exact R1|]. split; [|split].
    + intros p x u [I|I]; [injection I as <- <- _; exists n; auto|]. destruct (W1 _ _ _ I) as (q & Q & H). exists q. split; [exact Q|].
      rewrite (sizes_nth _ _ q (proj2 S0)). exact H.
    + intros p x [I|I]; [discriminate I|]. rewrite (shape_plane _ _ p S0). exact (D1 _ _ I).
    + intros q x X. rewrite B1 by exact X. cbn [last_written]. destruct (last_written _ q x); [reflexivity|].
      rewrite put_at by assumption. destruct ((n =? q)%nat && (s_off s + i =? x)); reflexivity.
Qed.

Lemma last_in l n a v : last_written l n a = Some v -> In (Writes (Dst n) a v) l.
Proof.
  induction l as [|x l IH]; cbn [last_written]; [discriminate|].
  destruct (last_written l n a) as [u|]; [intros E; right; apply IH, E|].
  destruct x as [p b|[k|k] b u]; try discriminate.
  destruct (Nat.eqb_spec k n) as [->|N]; cbn [andb]; [|discriminate].
  destruct (Z.eqb_spec b a) as [->|N]; [|discriminate]. intros E. injection E as ->. left. reflexivity.
Qed.
Lemma in_last l n a v : In (Writes (Dst n) a v) l -> exists u, last_written l n a = Some u.
Proof.
  induction l as [|x l IH]; cbn [last_written]; [intros []|]. intros [->|I].
  - destruct (last_written l n a) as [u|]; [exists u; reflexivity|]. rewrite Nat.eqb_refl, Z.eqb_refl. exists v. reflexivity.
  - destruct (IH I) as [u ->]. exists u. reflexivity.
Qed.

(** ** Calls *)
Lemma rust_reads set T w h src dst sb db p a :
  In (Reads p a) (accesses (converters set) T w h src dst sb db) -> exists n, p = Src n.
Proof.
  apply (calm_traced T _ any). apply calm_convert_image, slices_src.
Qed.
Lemma c_reads set T w h src dst sb db e p a :
  In (Reads p a) (c_accesses (converters set) T w h src dst sb db e) -> exists n, p = Src n.
Proof. apply (calm_traced T _ any). apply calm_dcp. Qed.

Definition read_alike (l : list access) (sb sb' : list (list Z)) : Prop :=
  forall n a, In (Reads (Src n) a) l -> 0 <= a -> nth (Z.to_nat a) (nth n sb' []) 0 = nth (Z.to_nat a) (nth n sb []) 0.

Lemma rust_replay set T w h src dst sb sb' db db' : same_sizes sb sb' -> same_sizes db db' ->
  read_alike (accesses (converters set) T w h src dst sb db) sb sb' ->
  accesses (converters set) T w h src dst sb' db' = accesses (converters set) T w h src dst sb db /\
  same_end (Mem sb db) (Mem sb' db') (convert (converters set) T w h src dst sb db) (convert (converters set) T w h src dst sb' db').
Proof.
  intros Z1 Z2 R. unfold accesses, convert, rust_slices in *.
  rewrite <- (slices_sizes Src sb sb' 0 Z1), <- (slices_sizes Dst db db' 0 Z2).
  apply replay; [split; assumption|]. intros p x I X.
  destruct (rust_reads set T w h src dst sb db p x I) as [n ->]. symmetry. exact (R n x I X).
Qed.
Lemma c_replay set T w h src dst sb sb' db db' e : same_sizes sb sb' -> same_sizes db db' ->
  read_alike (c_accesses (converters set) T w h src dst sb db e) sb sb' ->
  c_accesses (converters set) T w h src dst sb' db' e = c_accesses (converters set) T w h src dst sb db e /\
  same_end (Mem sb db) (Mem sb' db') (c_convert (converters set) T w h src dst sb db e) (c_convert (converters set) T w h src dst sb' db' e).
Proof.
  intros Z1 Z2 R. unfold c_accesses, c_convert in *.
  assert (L : forall b b', same_sizes b b' -> length b = length b').
  { intros b b' H. rewrite <- (map_length (@length Z) b), <- (map_length (@length Z) b'), H. reflexivity. }
  rewrite <- (L _ _ Z1), <- (L _ _ Z2). apply replay; [split; assumption|]. intros p x I X.
  destruct (c_reads set T w h src dst sb db e p x I) as [n ->]. symmetry. exact (R n x I X).
Qed.

(** ** Which bytes a successful call writes *)
Lemma other_byte db n a v : of_bytes db -> 0 <= a < zlen (nth n db []) ->
  exists db', same_sizes db db' /\ of_bytes db' /\ nth (Z.to_nat a) (nth n db' []) 0 <> v.
Proof.
  intros B H. set (u := if v =? 0 then 1 else 0).
  assert (Hn : (n < length db)%nat).
  { destruct (Nat.ltb_spec n (length db)); [assumption|]. rewrite nth_overflow in H by assumption. cbn in H. lia. }
  exists (upd db n (upd (nth n db []) (Z.to_nat a) u)). split; [|split].
  - unfold same_sizes. clear - Hn. revert n Hn. induction db as [|b db IH]; intros [|n] Hn; cbn [upd map nth length] in *; try lia.
    + rewrite upd_len. reflexivity.
    + f_equal. apply IH. lia.
  - assert (U : forall A (P : A -> Prop) l k x, Forall P l -> P x -> Forall P (upd l k x)).
    { clear. intros A P l. induction l as [|y l IH]; intros [|k] x F Px; cbn [upd]; inversion F; subst; constructor; auto. }
    apply U; [exact B|]. apply U; [|subst u; destruct (v =? 0); lia].
    apply (proj1 (Forall_forall _ _) B). apply nth_In, Hn.
  - rewrite nth_upd_nth. rewrite Nat.eqb_refl. destruct (Nat.ltb_spec n (length db)); [cbn [andb]|lia].
    rewrite nth_upd_nth, Nat.eqb_refl. unfold zlen in H. destruct (Nat.ltb_spec (Z.to_nat a) (length (nth n db []))); [cbn [andb]|lia].
    subst u. destruct (Z.eqb_spec v 0); lia.
Qed.

Lemma success_of_bytes impl T w h src dst sb db m : successful_call impl T w h src dst sb db m ->
  of_bytes sb /\ of_bytes db.
Proof. intros (_ & (_ & _ & _ & _ & _ & _ & B1 & B2) & _). split; eapply buffers_ok_bytes; eassumption. Qed.

Lemma success_end set T w h src dst sb db m : successful_call (converters set) T w h src dst sb db m ->
  let l := accesses (converters set) T w h src dst sb db in
  (forall p x v, In (Writes p x v) l -> exists n, p = Dst n /\ 0 <= x < buf_len db n) /\
  (forall n x, In (Reads (Src n) x) l -> 0 <= x < buf_len sb n) /\
  (forall n x, 0 <= x -> nth (Z.to_nat x) (nth n (dsts m) []) 0 =
     match last_written l n x with Some v => v | None => nth (Z.to_nat x) (nth n db []) 0 end).
Proof.
  intros (_ & _ & _ & _ & _ & _ & E) l. unfold convert in E.
  destruct (traced_end _ _ _ _ _ E) as (_ & _ & W & D & B).
  split; [exact W|]. split; [|exact B]. intros n x I. exact (D _ _ I).
Qed.

Lemma in_image_buf im w h bufs n a : 0 <= w -> 0 <= h ->
  laid_out im w h bufs -> in_image im w h n a -> 0 <= a < buf_len bufs n.
Proof.
  intros W H [I R] (g & y & j & Hg & -> & Hy & Hj & ->). unfold image_in, rows_apart in *.
  pose proof (proj1 (Forall_forall _ _) I g Hg) as P. pose proof (proj1 (Forall_forall _ _) R g Hg) as Q. cbv beta in P, Q. unfold plane_in in P.
  assert (B : 0 <= g_base g).
  { apply (planes_nonneg im w h g); auto. intros E1 E2.
    assert (G : In (Geom 0 0 (eff_stride (i_strides im) 0 w) h w) (image_planes im w h))
      by (unfold image_planes, planes; rewrite E1, E2; left; reflexivity).
    pose proof (proj1 (Forall_forall _ _) R _ G) as K. cbn in K. lia. }
  nia.
Qed.

Section Footprint.
Context {X : Type}.
Variables (c : M X) (T : target) (A : columns) (src dst : image) (w h : Z) (sb db : list (list Z)).
Hypothesis Hreads : forall db' p a, In (Reads p a) (fst (traced c T (Mem sb db'))) -> exists n, p = Src n.
Hypothesis Hruns : forall db', same_sizes db db' -> of_bytes db' ->
  exists o after, run c T (Mem sb db') = Ok o (Mem sb after) /\ converted A src dst w h sb db' after.
Hypothesis Hbytes : of_bytes db.
Hypothesis Hw : 0 <= w.
Hypothesis Hh : 0 <= h.
Hypothesis Hlaid : laid_out dst w h db.

Lemma footprint n a : (exists v, In (Writes (Dst n) a v) (fst (traced c T (Mem sb db)))) <-> in_image dst w h n a.
Proof.
  destruct (Hruns db eq_refl Hbytes) as (o & m & E & V). destruct (traced_end _ _ _ _ _ E) as (_ & _ & W & D & B).
  assert (Alt : forall v, 0 <= a < buf_len db n -> exists db' m', same_sizes db db' /\
            nth (Z.to_nat a) (nth n db' []) 0 <> v /\ converted A src dst w h sb db' m' /\
            (nth (Z.to_nat a) (nth n m' []) 0 =
               match last_written (fst (traced c T (Mem sb db))) n a with Some u => u | None => nth (Z.to_nat a) (nth n db' []) 0 end)).
  { intros v Ha. destruct (other_byte db n a v Hbytes Ha) as (db' & Z' & B' & N).
    destruct (Hruns db' Z' B') as (o' & m' & E' & V').
    exists db', m'. split; [exact Z'|]. split; [exact N|]. split; [exact V'|].
    destruct (traced_end _ _ _ _ _ E') as (_ & _ & _ & _ & B2). specialize (B2 n a). unfold byte_at in B2. cbn [plane_bytes dsts] in B2.
    rewrite B2 by lia.
    destruct (replay T c (Mem sb db) (Mem sb db')) as [-> _]; [split; [reflexivity|exact Z']| |reflexivity].
    intros p x I _. destruct (Hreads _ _ _ I) as [k ->]. reflexivity. }
  split.
  - intros [v I]. destruct (W _ _ _ I) as (n' & En & Ha). injection En as <-.
    destruct (in_image_dec dst w h n a) as [Y|N]; [exact Y|exfalso].
    destruct (in_last _ _ _ _ I) as [u Eu].
    destruct (Alt u Ha) as (db' & m' & Z' & Nu & (_ & _ & K) & F). rewrite Eu in F.
    apply Nu. rewrite <- F. symmetry. apply K; [|exact N]. rewrite <- (buf_len_sizes db db' n Z'). exact Ha.
  - intros Y. assert (Ha : 0 <= a < buf_len db n) by exact (in_image_buf dst w h db n a Hw Hh Hlaid Y).
    destruct (last_written (fst (traced c T (Mem sb db))) n a) as [v|] eqn:El; [exists v; apply last_in, El|exfalso].
    destruct (Alt (nth (Z.to_nat a) (nth n db []) 0) Ha) as (db' & m' & Z' & Nu & (_ & K' & _) & F).
    specialize (B n a ltac:(lia)). unfold byte_at in B. cbn [plane_bytes dsts] in B. rewrite El in B.
    destruct V as (_ & K & _).
    destruct Y as (g & y & j & Hg & -> & Hy & Hj & Ea). apply In_nth_error in Hg. destruct Hg as [p Hp].
    rewrite (sample_at _ g y j a Ea), (K p g Hp y j Hy Hj) in B. rewrite (sample_at m' g y j a Ea), (K' p g Hp y j Hy Hj) in F.
    apply Nu. congruence.
Qed.
End Footprint.

Lemma written_exactly set T w h src dst sb db m : successful_call (converters set) T w h src dst sb db m ->
  forall n a, (exists v, In (Writes (Dst n) a v) (accesses (converters set) T w h src dst sb db)) <-> in_image dst w h n a.
Proof.
  intros S n a. destruct (success_of_bytes _ _ _ _ _ _ _ _ _ S) as [Bs Bd].
  apply (footprint _ T (set_cols set (i_pf src) (i_pf dst) w) src dst w h sb db); auto; try (destruct S as (_ & _ & ? & ? & _); lia).
  - intros db' p x. apply (calm_traced T _ any). apply calm_convert_image, slices_src.
  - intros db' Z' B'. destruct (every_frame _ _ _ _ _ _ _ _ _ sb db' S eq_refl Z' Bs B') as [m' S'].
    destruct (success_conv _ _ _ _ _ _ _ _ _ S') as (E & V). destruct S' as (_ & _ & _ & _ & _ & _ & F).
    exists Success, (dsts m'). split; [|exact V]. destruct m' as [s' d']. cbn [srcs dsts] in *. subst s'.
    unfold convert, rust_slices in F. rewrite <- (slices_sizes Dst db db' 0 Z') in F. exact F.
  - destruct S as (_ & _ & _ & _ & _ & L & _). exact L.
Qed.

Lemma c_call_frame set T w h src dst sb db db' : c_call set T w h src dst sb db ->
  same_sizes db db' -> of_bytes db' -> c_call set T w h src dst sb db'.
Proof.
  intros (HT & (Hw & Hh & P1 & P2 & S1 & S2 & B1 & B2) & W & H & V1 & V2 & Su & E1 & E2 & L1 & L2 & R & I1 & I2) Z' F'.
  unfold c_call. split; [exact HT|]. split; [|do 6 (split; [assumption|]); split; [|split; [assumption|]; split; [|auto]]].
  - unfold well_formed. do 7 (split; [assumption|]). exact (buffers_ok_sizes _ _ _ Z' F' B2).
  - unfold enough_planes in *. rewrite <- (map_length (@length Z) db'), <- Z', map_length. exact E2.
  - exact (laid_out_sizes _ _ _ _ _ Z' L2).
Qed.
Lemma c_call_runs set T w h src dst sb db e : c_call set T w h src dst sb db ->
  exists after, c_convert (converters set) T w h src dst sb db e = Ok (C_Ok, e) (Mem sb after) /\
    converted (set_cols set (i_pf src) (i_pf dst) w) src dst w h sb db after.
Proof. intros (HT & HW & W & H & V1 & V2 & Su & E1 & E2 & L1 & L2 & R & I1 & I2). apply c_laid_out; assumption. Qed.

Lemma c_written_exactly set T w h src dst sb db e : c_call set T w h src dst sb db ->
  forall n a, (exists v, In (Writes (Dst n) a v) (c_accesses (converters set) T w h src dst sb db e)) <-> in_image dst w h n a.
Proof.
  intros S n a. assert (Bd : of_bytes db) by (destruct S as (_ & (_ & _ & _ & _ & _ & _ & _ & B2) & _); eapply buffers_ok_bytes, B2).
  apply (footprint _ T (set_cols set (i_pf src) (i_pf dst) w) src dst w h sb db); auto; try (destruct S as (_ & _ & ? & ? & _); lia).
  - intros db' p x. apply (calm_traced T _ any). apply calm_dcp.
  - intros db' Z' B'. destruct (c_call_runs set T w h src dst sb db' e (c_call_frame _ _ _ _ _ _ _ _ _ S Z' B')) as (after & E & V).
    exists (C_Ok, e), after. split; [|exact V]. unfold c_convert in E.
    replace (length db) with (length db'); [exact E|]. rewrite <- (map_length (@length Z) db'), <- Z'. apply map_length.
  - destruct S as (_ & _ & _ & _ & _ & _ & _ & _ & _ & _ & L & _). exact L.
Qed.

Lemma rust_last set T w h src dst sb db o m : convert (converters set) T w h src dst sb db = Ok o m ->
  let l := accesses (converters set) T w h src dst sb db in
  srcs m = sb /\
  (forall p a v, In (Writes p a v) l -> exists n, p = Dst n /\ 0 <= a < buf_len db n) /\
  (forall n a, In (Reads (Src n) a) l -> 0 <= a < buf_len sb n) /\
  (forall n a, 0 <= a -> nth (Z.to_nat a) (nth n (dsts m) []) 0 =
     match last_written l n a with Some v => v | None => nth (Z.to_nat a) (nth n db []) 0 end).
Proof.
  intros E. unfold convert in E. destruct (traced_end _ _ _ _ _ E) as (_ & R & W & D & B).
  split; [exact R|]. split; [exact W|]. split; [|exact B]. intros n x I. exact (D _ _ I).
Qed.
Lemma rust_reads_decide set T w h src dst sb sb' db db' : same_sizes sb sb' -> same_sizes db db' ->
  let l := accesses (converters set) T w h src dst sb db in
  (forall n a, In (Reads (Src n) a) l -> 0 <= a -> nth (Z.to_nat a) (nth n sb' []) 0 = nth (Z.to_nat a) (nth n sb []) 0) ->
  accesses (converters set) T w h src dst sb' db' = l /\
  same_course (convert (converters set) T w h src dst sb db) (convert (converters set) T w h src dst sb' db').
Proof.
  intros Z1 Z2 l R. destruct (rust_replay set T w h src dst sb sb' db db' Z1 Z2 R) as [E S]. split; [exact E|].
  unfold same_course. destruct (convert _ T w h src dst sb db), (convert _ T w h src dst sb' db'); try exact S.
  destruct S as (E' & [S1 S2] & _). auto.
Qed.
