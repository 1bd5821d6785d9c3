(** Subsampled chroma and the average of full chroma: lemmas. *)
From Coq Require Import ZArith List Bool Lia ZifyBool ZifyNat.
Import ListNotations.
From Verif Require Import Base Fmt Wrappers CpuInfo Lib Spec SimdSpec SetSpec ApiSpec Sets Api PropFacts Itu PixelSpec WhereSpec WhereFacts.
Open Scope Z_scope.

Lemma up_near t d : 0 < d -> - d < 2 * t - 2 * (d * round_up t d) + 0 < d \/ 2 * t - 2 * (d * round_up t d) = - d.
Proof.
  intros D. unfold round_up. pose proof (Z.div_mod (2 * t + d) (2 * d)) as K. pose proof (Z.mod_pos_bound (2 * t + d) (2 * d)) as L.
  set (q := (2 * t + d) / (2 * d)) in *. lia.
Qed.
Lemma up_bounds t d : 0 < d -> - d <= 2 * t - 2 * (d * round_up t d) < d.
Proof. intros D. pose proof (up_near t d D). lia. Qed.
Lemma down_bounds t d : 0 < d -> - d < 2 * t - 2 * (d * round_down t d) <= d.
Proof. intros D. unfold round_down. pose proof (up_bounds (- t) d D). lia. Qed.

(** What is known of one chroma byte [c] of the average of [n] pixels of sum [p]: it is the exact value
    rounded, downwards or upwards from a half. *)
Definition near_up (k : Z * Z * Z) (n : Z) (p : rgb) (c : Z) : Prop := - n * 65536 <= 2 * dot k p - 2 * (n * 65536 * (c - 128)) < n * 65536.
Definition near_down (k : Z * Z * Z) (n : Z) (p : rgb) (c : Z) : Prop := - n * 65536 < 2 * dot k p - 2 * (n * 65536 * (c - 128)) <= n * 65536.

Lemma tied_sum k n p : 0 < n -> tie k n p -> round_down (dot k p) (n * 65536) + 1 = round_up (dot k p) (n * 65536).
Proof.
  unfold tie. intros N E. set (m := n * 65536) in *. set (t := dot k p) in *. assert (M : 0 < m) by lia.
  pose proof (Z.div_mod (2 * t) (2 * m)) as K. rewrite E in K. set (q := 2 * t / (2 * m)) in *.
  unfold round_down, round_up.
  assert (E1 : (2 * t + m) / (2 * m) = q + 1) by (symmetry; apply Z.div_unique with 0; lia).
  assert (E2 : (2 * - t + m) / (2 * m) = - q) by (symmetry; apply Z.div_unique with 0; lia).
  rewrite E1, E2. lia.
Qed.
Lemma untied_sum k n p : 0 < n -> ~ tie k n p -> round_down (dot k p) (n * 65536) = round_up (dot k p) (n * 65536).
Proof.
  unfold tie. intros N E. set (m := n * 65536) in *. set (t := dot k p) in *. assert (M : 0 < m) by lia.
  pose proof (up_bounds t m M) as U. pose proof (down_bounds t m M) as D.
  set (a := round_up t m) in *. set (b := round_down t m) in *.
  assert (Q : a = b \/ a = b + 1) by nia. destruct Q as [-> | Q]; [reflexivity|].
  exfalso. apply E. assert (2 * t = 2 * m * b + m) by nia. symmetry. apply Z.mod_unique with b; lia.
Qed.

Lemma chroma_near set w x k n p c : 0 < n ->
  (halves_up set w x /\ tie k n p -> c = 128 + round_down (dot k p) (n * 65536) + 1) ->
  (~ (halves_up set w x /\ tie k n p) -> c = 128 + round_down (dot k p) (n * 65536)) ->
  (halves_up set w x -> near_up k n p c) /\ (~ halves_up set w x -> near_down k n p c).
Proof.
  intros N U D. unfold near_up, near_down. assert (P : 0 < n * 65536) by lia. split.
  - intros H. assert (E : c = 128 + round_up (dot k p) (n * 65536)).
    { destruct (Z.eq_dec ((2 * dot k p) mod (2 * (n * 65536))) (n * 65536)) as [T|T].
      - rewrite (U (conj H T)), <- (tied_sum k n p N T). lia.
      - rewrite (D (fun K => T (proj2 K))), (untied_sum k n p N T). lia. }
    pose proof (up_bounds (dot k p) (n * 65536) P). rewrite E. lia.
  - intros H. rewrite (D (fun K => H (proj1 K))). pose proof (down_bounds (dot k p) (n * 65536) P). lia.
Qed.
Lemma halves_dec set w x : halves_up set w x \/ ~ halves_up set w x.
Proof.
  unfold halves_up. destruct (Z_lt_ge_dec x (8 * (w / 8))) as [X|X]; [|right; intros [_ X']; lia].
  destruct set; [right|right|right|left]; try (intros [Q _]; discriminate Q). auto.
Qed.
Lemma halves_next set w x : halves_up set w (2 * x + 1) <-> halves_up set w (2 * x).
Proof. unfold halves_up. split; intros [A B]; (split; [exact A|]); lia. Qed.

Lemma dot_add k p q : dot k (add_rgb p q) = dot k p + dot k q.
Proof. destruct k as [[a b] c], p as [[p1 p2] p3], q as [[q1 q2] q3]. cbn [dot add_rgb]. lia. Qed.

Lemma mean_any k p1 p2 p3 p4 c c1 c2 c3 c4 :
  (near_up k 4 (add_rgb (add_rgb p1 p2) (add_rgb p3 p4)) c \/ near_down k 4 (add_rgb (add_rgb p1 p2) (add_rgb p3 p4)) c) ->
  (near_up k 1 p1 c1 \/ near_down k 1 p1 c1) -> (near_up k 1 p2 c2 \/ near_down k 1 p2 c2) ->
  (near_up k 1 p3 c3 \/ near_down k 1 p3 c3) -> (near_up k 1 p4 c4 \/ near_down k 1 p4 c4) ->
  Z.abs (4 * c - (c1 + c2 + (c3 + c4))) <= 4.
Proof. unfold near_up, near_down. rewrite !dot_add. lia. Qed.
Lemma mean_up k p1 p2 p3 p4 c c1 c2 c3 c4 :
  near_up k 4 (add_rgb (add_rgb p1 p2) (add_rgb p3 p4)) c -> near_up k 1 p1 c1 -> near_up k 1 p2 c2 -> near_up k 1 p3 c3 -> near_up k 1 p4 c4 ->
  Z.abs (4 * c - (c1 + c2 + (c3 + c4))) <= 3.
Proof. unfold near_up. rewrite !dot_add. lia. Qed.
Lemma mean_down k p1 p2 p3 p4 c c1 c2 c3 c4 :
  near_down k 4 (add_rgb (add_rgb p1 p2) (add_rgb p3 p4)) c -> near_down k 1 p1 c1 -> near_down k 1 p2 c2 -> near_down k 1 p3 c3 -> near_down k 1 p4 c4 ->
  Z.abs (4 * c - (c1 + c2 + (c3 + c4))) <= 3.
Proof. unfold near_down. rewrite !dot_add. lia. Qed.

Section Mean.
Variables (set set' : instruction_set) (T T' : target) (w h : Z) (src full dst : image) (sb db db' : list (list Z)) (m m' : mem).
Hypothesis S : successful_call (converters set) T w h src full sb db m.
Hypothesis S' : successful_call (converters set') T' w h src dst sb db' m'.
Hypothesis Rs : is_rgb (i_pf src) = true.
Hypothesis F : i_pf full = I444.
Hypothesis D : i_pf dst = I420 \/ i_pf dst = Nv12.
Hypothesis CS : i_cs dst = i_cs full.

Lemma full_pixel x y : 0 <= x < w -> 0 <= y < h ->
  let '(l, cb, cr) := pixel full w h (dsts m) x y in
  l = luma (i_cs full) (pixel src w h sb x y) /\
  ((halves_up set w x -> near_up (cb_weights (i_cs full)) 1 (pixel src w h sb x y) cb) /\ (~ halves_up set w x -> near_down (cb_weights (i_cs full)) 1 (pixel src w h sb x y) cb)) /\
  ((halves_up set w x -> near_up (cr_weights (i_cs full)) 1 (pixel src w h sb x y) cr) /\ (~ halves_up set w x -> near_down (cr_weights (i_cs full)) 1 (pixel src w h sb x y) cr)).
Proof.
  intros X Y. assert (Rd : is_rgb (i_pf full) = false) by (rewrite F; reflexivity).
  pose proof (c14_exactly set T w h src full sb db m S Rs Rd x y X Y) as K.
  destruct (pixel full w h (dsts m) x y) as [[l cb] cr]. rewrite F in K. cbn [chroma_area] in K.
  destruct K as (L & U1 & D1 & U2 & D2). split; [exact L|].
  split; [exact (chroma_near set w x _ 1 _ cb eq_refl U1 D1)|exact (chroma_near set w x _ 1 _ cr eq_refl U2 D2)].
Qed.
Lemma block_pixel x y : 0 <= x < w -> 0 <= y < h -> 
  let '(l, cb, cr) := pixel dst w h (dsts m') x y in
  let p := block_sum (pixel src w h sb) (x / 2) (y / 2) in
  l = luma (i_cs full) (pixel src w h sb x y) /\
  ((halves_up set' w x -> near_up (cb_weights (i_cs full)) 4 p cb) /\ (~ halves_up set' w x -> near_down (cb_weights (i_cs full)) 4 p cb)) /\
  ((halves_up set' w x -> near_up (cr_weights (i_cs full)) 4 p cr) /\ (~ halves_up set' w x -> near_down (cr_weights (i_cs full)) 4 p cr)).
Proof.
  intros X Y. assert (Rd : is_rgb (i_pf dst) = false) by (destruct D as [-> | ->]; reflexivity).
  pose proof (c14_exactly set' T' w h src dst sb db' m' S' Rs Rd x y X Y) as K.
  destruct (pixel dst w h (dsts m') x y) as [[l cb] cr]. rewrite CS in K.
  replace (chroma_area (i_pf dst) (pixel src w h sb) x y) with (4, block_sum (pixel src w h sb) (x / 2) (y / 2)) in K by (destruct D as [-> | ->]; reflexivity).
  cbv zeta. destruct K as (L & U1 & D1 & U2 & D2). split; [exact L|].
  split; [exact (chroma_near set' w x _ 4 _ cb eq_refl U1 D1)|exact (chroma_near set' w x _ 4 _ cr eq_refl U2 D2)].
Qed.

Lemma mean_call x y : 0 <= x < w / 2 -> 0 <= y < h / 2 ->
  let '(_, cb, cr) := pixel dst w h (dsts m') (2 * x) (2 * y) in
  let '(_, scb, scr) := block_sum (pixel full w h (dsts m)) x y in
  Z.abs (4 * cb - scb) <= 4 /\ Z.abs (4 * cr - scr) <= 4 /\
  (set = set' -> Z.abs (4 * cb - scb) <= 3 /\ Z.abs (4 * cr - scr) <= 3).
Proof.
  intros X Y. assert (W : 0 <= 2 * x /\ 2 * x + 1 < w) by (pose proof (Z.div_mod w 2); pose proof (Z.mod_pos_bound w 2); lia).
  assert (H : 0 <= 2 * y /\ 2 * y + 1 < h) by (pose proof (Z.div_mod h 2); pose proof (Z.mod_pos_bound h 2); lia).
  pose proof (block_pixel (2 * x) (2 * y) ltac:(lia) ltac:(lia)) as B.
  replace (2 * x / 2) with x in B by (rewrite Z.mul_comm, Z.div_mul; lia). replace (2 * y / 2) with y in B by (rewrite Z.mul_comm, Z.div_mul; lia).
  pose proof (full_pixel (2 * x) (2 * y) ltac:(lia) ltac:(lia)) as P1. pose proof (full_pixel (2 * x + 1) (2 * y) ltac:(lia) ltac:(lia)) as P2.
  pose proof (full_pixel (2 * x) (2 * y + 1) ltac:(lia) ltac:(lia)) as P3. pose proof (full_pixel (2 * x + 1) (2 * y + 1) ltac:(lia) ltac:(lia)) as P4.
  unfold block_sum in *.
  destruct (pixel dst w h (dsts m') (2 * x) (2 * y)) as [[l cb] cr].
  destruct (pixel full w h (dsts m) (2 * x) (2 * y)) as [[l1 b1] r1], (pixel full w h (dsts m) (2 * x + 1) (2 * y)) as [[l2 b2] r2],
    (pixel full w h (dsts m) (2 * x) (2 * y + 1)) as [[l3 b3] r3], (pixel full w h (dsts m) (2 * x + 1) (2 * y + 1)) as [[l4 b4] r4].
  cbn [add_rgb]. cbv zeta in B. destruct B as (_ & [BU BD] & [RU RD]).
  destruct P1 as (_ & [U1 D1] & [U1' D1']), P2 as (_ & [U2 D2] & [U2' D2']), P3 as (_ & [U3 D3] & [U3' D3']), P4 as (_ & [U4 D4] & [U4' D4']).
  pose proof (halves_next set w x) as NX.
  assert (E : forall (P Q R : Prop), R \/ ~ R -> (R -> P) -> (~ R -> Q) -> P \/ Q) by (intros P Q R [K|K] A B; [left; apply A, K|right; apply B, K]).
  split; [|split].
  - exact (mean_any _ _ _ _ _ _ _ _ _ _ (E _ _ _ (halves_dec _ _ _) BU BD) (E _ _ _ (halves_dec _ _ _) U1 D1) (E _ _ _ (halves_dec _ _ _) U2 D2)
      (E _ _ _ (halves_dec _ _ _) U3 D3) (E _ _ _ (halves_dec _ _ _) U4 D4)).
  - exact (mean_any _ _ _ _ _ _ _ _ _ _ (E _ _ _ (halves_dec _ _ _) RU RD) (E _ _ _ (halves_dec _ _ _) U1' D1') (E _ _ _ (halves_dec _ _ _) U2' D2')
      (E _ _ _ (halves_dec _ _ _) U3' D3') (E _ _ _ (halves_dec _ _ _) U4' D4')).
  - intros Es. rewrite <- Es in BU, BD, RU, RD. destruct (halves_dec set w (2 * x)) as [Hu|Hu].
    + pose proof (proj2 NX Hu) as Hu'. split.
      * exact (mean_up _ _ _ _ _ _ _ _ _ _ (BU Hu) (U1 Hu) (U2 Hu') (U3 Hu) (U4 Hu')).
      * exact (mean_up _ _ _ _ _ _ _ _ _ _ (RU Hu) (U1' Hu) (U2' Hu') (U3' Hu) (U4' Hu')).
    + assert (Hu' : ~ halves_up set w (2 * x + 1)) by (intros Q; exact (Hu (proj1 NX Q))). split.
      * exact (mean_down _ _ _ _ _ _ _ _ _ _ (BD Hu) (D1 Hu) (D2 Hu') (D3 Hu) (D4 Hu')).
      * exact (mean_down _ _ _ _ _ _ _ _ _ _ (RD Hu) (D1' Hu) (D2' Hu') (D3' Hu) (D4' Hu')).
Qed.
End Mean.
Lemma mean_lt set set' T T' w h src full sub sb db db' m m' :
  successful_call (converters set) T w h src full sb db m ->
  successful_call (converters set') T' w h src sub sb db' m' ->
  is_rgb (i_pf src) = true -> i_pf full = I444 -> i_pf sub = I420 \/ i_pf sub = Nv12 -> i_cs sub = i_cs full ->
  forall x y, 0 <= x < w / 2 -> 0 <= y < h / 2 ->
  let '(_, cb, cr) := pixel sub w h (dsts m') (2 * x) (2 * y) in
  let '(_, cb4, cr4) := block_sum (pixel full w h (dsts m)) x y in
  Z.abs (4 * cb - cb4) <= 4 /\ Z.abs (4 * cr - cr4) <= 4 /\
  (set = set' -> Z.abs (4 * cb - cb4) < 4 /\ Z.abs (4 * cr - cr4) < 4).
Proof.
  intros S S' Rs F D CS x y X Y. pose proof (mean_call set set' T T' w h src full sub sb db db' m m' S S' Rs F D CS x y X Y) as K.
  destruct (pixel sub w h (dsts m') (2 * x) (2 * y)) as [[l cb] cr]. destruct (block_sum (pixel full w h (dsts m)) x y) as [[l4 cb4] cr4].
  destruct K as (A & B & C). split; [exact A|]. split; [exact B|]. intros E. destruct (C E). lia.
Qed.
