(** Pictures of one colour: lemmas. *)
From Coq Require Import ZArith List Bool Lia.
Import ListNotations.
From Verif Require Import Base Fmt Wrappers CpuInfo Lib Spec SimdSpec SetSpec ApiSpec Sets Api PropFacts Itu PixelSpec PixelApi WhereSpec WhereFacts FlatSpec.
Open Scope Z_scope.

Lemma tie_four k p : tie k 4 (add_rgb (add_rgb p p) (add_rgb p p)) <-> tie k 1 p.
Proof.
  unfold tie. destruct k as [[a b] c], p as [[r g] e]. cbn [add_rgb dot].
  replace (2 * (a * (r + r + (r + r)) + b * (g + g + (g + g)) + c * (e + e + (e + e)))) with (4 * (2 * (a * r + b * g + c * e))) by ring.
  replace (2 * (4 * 65536)) with (4 * (2 * (1 * 65536))) by ring. rewrite Z.mul_mod_distr_l by lia. lia.
Qed.

Lemma flat_area set T w h src dst sb db m p : successful_call (converters set) T w h src dst sb db m ->
  is_rgb (i_pf src) = true -> is_rgb (i_pf dst) = false -> flat src w h sb p ->
  exists n q, (forall k, tie k n q <-> tie k 1 p) /\
    forall x y, 0 <= x < w -> 0 <= y < h -> chroma_area (i_pf dst) (pixel src w h sb) x y = (n, q).
Proof.
  intros S Rs Rd F. destruct (success_valid _ _ _ _ _ _ _ _ _ S) as (_ & Vd & Su).
  assert (I : i_pf dst = I444 \/ i_pf dst = I420 \/ i_pf dst = Nv12) by (revert Su Rs Rd; destruct (i_pf src), (i_pf dst); try discriminate; auto).
  destruct I as [E|E].
  - exists 1, p. split; [tauto|]. intros x y X Y. rewrite E. cbn [chroma_area]. rewrite (F x y X Y). reflexivity.
  - exists 4, (add_rgb (add_rgb p p) (add_rgb p p)). split; [intros k; apply tie_four|]. intros x y X Y. destruct Vd as (_ & _ & V).
    assert (V' : w mod 2 = 0 /\ h mod 2 = 0) by (destruct E as [E|E]; rewrite E in V; exact V). clear V.
    assert (Xs : 0 <= 2 * (x / 2) /\ 2 * (x / 2) + 1 < w) by (pose proof (Z.div_mod w 2); pose proof (Z.div_mod x 2); pose proof (Z.mod_pos_bound x 2); lia).
    assert (Ys : 0 <= 2 * (y / 2) /\ 2 * (y / 2) + 1 < h) by (pose proof (Z.div_mod h 2); pose proof (Z.div_mod y 2); pose proof (Z.mod_pos_bound y 2); lia).
    assert (A : forall px, chroma_area (i_pf dst) px x y = (4, block_sum px (x / 2) (y / 2))) by (intros px; destruct E as [-> | ->]; reflexivity).
    rewrite A. unfold block_sum. rewrite !F by lia. reflexivity.
Qed.

Lemma halves_between set w x x' : x <= x' -> halves_up set w x' -> halves_up set w x.
Proof. unfold halves_up. intros L [H1 H2]. split; [exact H1|lia]. Qed.
Lemma wraps_between set spf dpf w x x' : x <= x' -> blue_wraps set spf dpf w x' -> blue_wraps set spf dpf w x.
Proof. unfold blue_wraps. intros L [H1 H2]. split; [exact H1|lia]. Qed.

(** First and last column are done alike, then all are. *)
Lemma all_alike (P : Z -> Prop) w : (forall x x', x <= x' -> P x' -> P x) -> (P 0 -> P (w - 1)) ->
  forall x x', 0 <= x < w -> 0 <= x' < w -> (P x <-> P x').
Proof.
  intros D E x x' X X'.
  assert (K : forall u v, 0 <= u < w -> 0 <= v < w -> P u -> P v).
  { intros u v U V H. apply (D v (w - 1)); [lia|]. apply E. apply (D 0 u); [lia|exact H]. }
  split; apply K; assumption.
Qed.

Lemma flat_encoded set T w h src dst sb db m p : successful_call (converters set) T w h src dst sb db m ->
  is_rgb (i_pf src) = true -> is_rgb (i_pf dst) = false -> 0 < w -> 0 < h -> flat src w h sb p ->
  ((exists q, flat dst w h (dsts m) q) <->
   (tie (cb_weights (i_cs dst)) 1 p \/ tie (cr_weights (i_cs dst)) 1 p -> halves_up set w 0 -> halves_up set w (w - 1))).
Proof.
  intros S Rs Rd W H F. destruct (flat_area _ _ _ _ _ _ _ _ _ p S Rs Rd F) as (n & q & TQ & A).
  assert (K : forall x y x' y', 0 <= x < w -> 0 <= y < h -> 0 <= x' < w -> 0 <= y' < h ->
    (pixel dst w h (dsts m) x' y' = pixel dst w h (dsts m) x y <->
     (tie (cb_weights (i_cs dst)) 1 p \/ tie (cr_weights (i_cs dst)) 1 p -> (halves_up set w x <-> halves_up set w x')))).
  { intros x y x' y' X Y X' Y'.
    pose proof (encoded_alike _ _ _ _ _ _ _ _ _ _ _ _ _ _ _ _ _ _ S S Rs Rs Rd Rd eq_refl x y x' y' X Y X' Y'
      ltac:(rewrite !F; auto) ltac:(rewrite !A; auto)) as Q.
    rewrite (A x y X Y) in Q. rewrite !TQ in Q. exact Q. }
  split.
  - intros [c C] Ti H0. apply (K 0 0 (w - 1) 0); try lia; [|exact Ti|exact H0]. rewrite !C by lia. reflexivity.
  - intros E. exists (pixel dst w h (dsts m) 0 0). intros x y X Y. apply (K 0 0 x y); try lia. intros Ti.
    apply (all_alike (halves_up set w) w (fun u v => halves_between set w u v) (E Ti)); lia.
Qed.

Lemma flat_decoded set T w h src dst sb db m p : successful_call (converters set) T w h src dst sb db m ->
  is_rgb (i_pf src) = false -> is_rgb (i_pf dst) = true -> 0 < w -> 0 < h -> flat src w h sb p ->
  ((exists q, flat dst w h (dsts m) q) <->
   (~ blue_fits (i_cs src) p -> blue_wraps set (i_pf src) (i_pf dst) w 0 -> blue_wraps set (i_pf src) (i_pf dst) w (w - 1))).
Proof.
  intros S Rs Rd W H F.
  assert (K : forall x y x' y', 0 <= x < w -> 0 <= y < h -> 0 <= x' < w -> 0 <= y' < h ->
    (pixel dst w h (dsts m) x' y' = pixel dst w h (dsts m) x y <->
     (~ blue_fits (i_cs src) p -> (blue_wraps set (i_pf src) (i_pf dst) w x <-> blue_wraps set (i_pf src) (i_pf dst) w x')))).
  { intros x y x' y' X Y X' Y'.
    pose proof (decoded_alike _ _ _ _ _ _ _ _ _ _ _ _ _ _ _ _ _ _ S S Rs Rs Rd Rd eq_refl x y x' y' X Y X' Y' ltac:(rewrite !F; auto)) as Q.
    rewrite (F x y X Y) in Q. exact Q. }
  split.
  - intros [c C] Ti H0. apply (K 0 0 (w - 1) 0); try lia; [|exact Ti|exact H0]. rewrite !C by lia. reflexivity.
  - intros E. exists (pixel dst w h (dsts m) 0 0). intros x y X Y. apply (K 0 0 x y); try lia. intros Ti.
    apply (all_alike (blue_wraps set (i_pf src) (i_pf dst) w) w (fun u v => wraps_between set _ _ w u v) (E Ti)); lia.
Qed.

Lemma flat_reordered set T w h src dst sb db m p : successful_call (converters set) T w h src dst sb db m ->
  is_rgb (i_pf src) = true -> is_rgb (i_pf dst) = true -> flat src w h sb p -> flat dst w h (dsts m) p.
Proof. intros S Rs Rd F x y X Y. rewrite (c21 _ _ _ _ _ _ _ _ _ S Rs Rd x y X Y). apply F; assumption. Qed.

(** The portable kernels, and every set on colours that are neither a tie nor too blue. *)
Lemma flat_flat set T w h src dst sb db m p : successful_call (converters set) T w h src dst sb db m ->
  0 < w -> 0 < h -> flat src w h sb p ->
  set = X86 \/ (~ tie (cb_weights (i_cs dst)) 1 p /\ ~ tie (cr_weights (i_cs dst)) 1 p /\ blue_fits (i_cs src) p) ->
  exists q, flat dst w h (dsts m) q.
Proof.
  intros S W H F C. destruct (is_rgb (i_pf src)) eqn:Rs, (is_rgb (i_pf dst)) eqn:Rd.
  - exists p. exact (flat_reordered _ _ _ _ _ _ _ _ _ _ S Rs Rd F).
  - apply (flat_encoded _ _ _ _ _ _ _ _ _ _ S Rs Rd W H F). intros Ti [Q _]. destruct C as [C|C]; [congruence|tauto].
  - apply (flat_decoded _ _ _ _ _ _ _ _ _ _ S Rs Rd W H F). intros Ti [Q _]. destruct C as [C|C]; [destruct Q; congruence|tauto].
  - exfalso. destruct (success_valid _ _ _ _ _ _ _ _ _ S) as (_ & _ & Su). revert Su Rs Rd. destruct (i_pf src), (i_pf dst); try discriminate; auto.
Qed.
