(** Properties of C programs that convert at the same time, into memory that they share (C60). *)
From Coq Require Import ZArith List Bool Lia.
Import ListNotations.
From Verif Require Import Base Fmt Wrappers CpuInfo Spec ApiSpec AcceptSpec Lib Sets Api PropsConvert PropsPixel Thread ThreadSpec TraceSpec
  CThread CThreadSpec CThreadFacts CThreadRunFacts.
Open Scope Z_scope.

(** C60: whatever the interleaving, no call is disturbed: none faults, each returns success, and
    when it has returned, every byte of its destination image is what the call would have put
    there alone. *)
Theorem C60_undisturbed : forall set T hp calls, calls_ok set T hp calls ->
  forall schedule t q, nth_error calls t = Some q ->
  let st := c_interleave T schedule (c_start set hp calls) in
  match nth_error (snd st) t with
  | Some (Running _ _) => True
  | Some (Returned a) => a = (C_Ok, None) /\
      forall n x, in_image (q_dst q) (q_w q) (q_h q) n x -> alone_byte set T hp q n x (fst st (place q n x))
  | Some (Died _) | None => False
  end.
Proof. exact c_undisturbed. Qed.
Print Assumptions C60_undisturbed.

(** C60: and all of them return, after a number of steps of their own. *)
Theorem C60_finishes : forall set T hp calls, calls_ok set T hp calls ->
  exists turns : nat, forall schedule,
  (forall t, (t < length calls)%nat -> (turns <= count_occ Nat.eq_dec schedule t)%nat) ->
  Forall (fun th => th = Returned (C_Ok, None)) (snd (c_interleave T schedule (c_start set hp calls))).
Proof. exact c_finishes. Qed.
Print Assumptions C60_finishes.

(** C60: at no time has anything but a byte of a destination image been changed: not the padding
    between its rows, which may belong to the image of another call or to something else. *)
Theorem C60_nothing_else_changes : forall set T hp calls, calls_ok set T hp calls ->
  forall schedule x, (forall q, In q calls -> ~ target_byte q x) ->
  fst (c_interleave T schedule (c_start set hp calls)) x = hp x.
Proof. exact c_elsewhere. Qed.
Print Assumptions C60_nothing_else_changes.

(** C60: there is no data race: if at some time two threads are about to access the same byte, both
    are about to read it. *)
Theorem C60_no_data_race : forall set T hp calls, calls_ok set T hp calls ->
  forall schedule t u th th' w w' x, t <> u ->
  let st := c_interleave T schedule (c_start set hp calls) in
  nth_error (snd st) t = Some th -> nth_error (snd st) u = Some th' ->
  c_next_access T th = Some (w, x) -> c_next_access T th' = Some (w', x) -> w = false /\ w' = false.
Proof. exact c_no_race. Qed.
Print Assumptions C60_no_data_race.

(** The left and the right half of a picture of 4x2 pixels: the rows of the one lie between those of
    the other, in both images, and the pointers lead to memory that overlaps. *)
Definition ex_chp : memory := fun a => (37 * a) mod 256.
Definition ex_half (x : Z) : request :=
  Request 2 2 (Image Bgra CsRgb 1 (Some [16])) (Image I444 Bt601 3 (Some [4; 4; 4]))
    [Region (100 + 4 * x) (32 - 4 * x)]
    [Region (200 + x) (8 - x); Region (210 + x) (8 - x); Region (220 + x) (8 - x)].
Lemma ex_half_bytes x n a : in_image (q_dst (ex_half x)) 2 2 n a ->
  exists y j, (n = 0 \/ n = 1 \/ n = 2)%nat /\ (y = 0 \/ y = 1) /\ 0 <= j < 2 /\ a = 4 * y + j.
Proof.
  intros (g & y & j & I & En & Hy & Hj & Ea). cbn in I.
  destruct I as [<-|[<-|[<-|[]]]]; cbn [g_buf g_rows g_row g_base g_stride] in *; exists y, j; lia.
Qed.
Lemma ex_half_target x z : target_byte (ex_half x) z ->
  exists b y j, (b = 200 \/ b = 210 \/ b = 220) /\ (y = 0 \/ y = 1) /\ 0 <= j < 2 /\ z = b + x + (4 * y + j).
Proof.
  intros (n & a & I & ->). destruct (ex_half_bytes x n a I) as (y & j & [-> | [-> | ->]] & Hy & Hj & ->);
    unfold place; cbn [ex_half q_to nth r_base]; [exists 200|exists 210|exists 220]; exists y, j; lia.
Qed.
Lemma ex_half_call x : x = 0 \/ x = 2 ->
  c_call X86 T64_debug 2 2 (q_src (ex_half x)) (q_dst (ex_half x))
    (map (bytes_of ex_chp) (q_from (ex_half x))) (map (bytes_of ex_chp) (q_to (ex_half x))).
Proof.
  intros [-> | ->]; (unfold c_call; split; [check_call|]; split; [check_call|]; split; [lia|]; split; [lia|];
  (split; [repeat split; vm_compute; congruence|]); (split; [repeat split; vm_compute; congruence|]); split; [reflexivity|];
  (split; [split; vm_compute; congruence|]); (split; [split; vm_compute; congruence|]);
  (split; [split; repeat constructor; vm_compute; congruence|]); (split; [split; repeat constructor; vm_compute; congruence|]);
  (split; [repeat constructor; vm_compute; congruence|]); split; repeat constructor; vm_compute; congruence).
Qed.
Example C60_example : calls_ok X86 T64_debug ex_chp [ex_half 0; ex_half 2] /\
  let st := c_interleave T64_debug (concat (repeat [1; 0; 1]%nat 400)) (c_start X86 ex_chp [ex_half 0; ex_half 2]) in
  snd st = [Returned (C_Ok, None); Returned (C_Ok, None)] /\
  map (bytes_of (fst st)) [Region 200 8; Region 210 8; Region 220 8] =
    [[153; 61; 188; 95; 156; 129; 62; 164]; [106; 106; 106; 106; 144; 106; 219; 106]; [147; 147; 147; 147; 34; 147; 129; 147]].
Proof.
  split; [|vm_compute; auto].
  split; [|split].
  - assert (H : forall x, x = 0 \/ x = 2 -> forall n a n' a', in_image (q_dst (ex_half x)) 2 2 n a -> in_image (q_dst (ex_half x)) 2 2 n' a' ->
       place (ex_half x) n a = place (ex_half x) n' a' -> n = n' /\ a = a').
    { intros x Hx n a n' a' I I' E.
      destruct (ex_half_bytes x n a I) as (y & j & Hn & Hy & Hj & ->). destruct (ex_half_bytes x n' a' I') as (y' & j' & Hn' & Hy' & Hj' & ->).
      unfold place in E. destruct Hn as [-> | [-> | ->]], Hn' as [-> | [-> | ->]]; cbn [ex_half q_to nth r_base] in E; split; lia. }
    intros q [<-|[<-|[]]]; (split; [apply ex_half_call; auto|apply H; auto]).
  - intros q q' r z Iq Iq' B Ir [I1 I2].
    assert (E : exists x, (x = 0 \/ x = 2) /\ q = ex_half x) by (destruct Iq as [<-|[<-|[]]]; eexists; (split; [|reflexivity]); auto).
    destruct E as (x & Hx & ->). destruct (ex_half_target x z B) as (b & y & j & Hb & Hy & Hj & ->).
    destruct Iq' as [<-|[<-|[]]]; destruct Ir as [<-|[]]; cbn [r_base r_len] in *; lia.
  - intros t u q q' z Et Eu Ne B B'.
    destruct t as [|[|t]]; [| |destruct t; discriminate Et]; (destruct u as [|[|u]]; [| |destruct u; discriminate Eu]);
      cbn [nth_error] in Et, Eu; try (now destruct Ne); injection Et as <-; injection Eu as <-;
      destruct (ex_half_target _ z B) as (b & y & j & Hb & Hy & Hj & ->);
      destruct (ex_half_target _ _ B') as (b' & y' & j' & Hb' & Hy' & Hj' & E); lia.
Qed.
