(** Brightness and colour are kept apart (C68). *)
From Coq Require Import ZArith List Bool Lia.
Import ListNotations.
From Verif Require Import Base Fmt CpuInfo Lib Sets Spec SetSpec ApiSpec Api PropsConvert PropsPixel BrightSpec BrightFacts.
Open Scope Z_scope.

(** C68: two RGB pictures, the second with a grey added to each pixel (not necessarily the same one).  The
    chroma stays what it was, exactly; on two instruction sets of which one is NEON up to one step.  The luma of
    each pixel follows the grey added to it. *)
Theorem C68_encoded : forall set set' T T' w h src src' dst dst' sb sb' db db' m m' k,
  successful_call (converters set) T w h src dst sb db m ->
  successful_call (converters set') T' w h src' dst' sb' db' m' ->
  is_rgb (i_pf src) = true -> is_rgb (i_pf src') = true -> is_rgb (i_pf dst) = false ->
  i_pf dst' = i_pf dst -> i_cs dst' = i_cs dst ->
  (forall x y, 0 <= x < w -> 0 <= y < h -> pixel src' w h sb' x y = add_rgb (pixel src w h sb x y) (grey (k x y))) ->
  forall x y, 0 <= x < w -> 0 <= y < h ->
  let '(l, cb, cr) := pixel dst w h (dsts m) x y in
  let '(l', cb', cr') := pixel dst' w h (dsts m') x y in
  luma_follows (i_cs dst) (k x y) (l' - l) /\ Z.abs (cb' - cb) <= 1 /\ Z.abs (cr' - cr) <= 1 /\
  ((set = Neon <-> set' = Neon) -> cb' = cb /\ cr' = cr).
Proof. exact encoded_bright. Qed.
Print Assumptions C68_encoded.
(** 1, 2, 3 and 4 are added to the four pixels of a block. *)
Definition ex_bright : list (list Z) := [[10; 200; 30; 9;  40; 50; 60; 9;  70; 180; 90; 9;  100; 110; 120; 9]].
Definition ex_brighter : list (list Z) := [[11; 201; 31; 0;  42; 52; 62; 0;  73; 183; 93; 0;  104; 114; 124; 0]].
Definition ex_bright_k (x y : Z) : Z := 2 * y + x + 1.
Example C68_encoded_example set : exists m m',
  successful_call (converters set) T64_debug 2 2 ex_bgra ex_nv12 ex_bright ex_nv12_buffers m /\
  successful_call (converters set) T64_debug 2 2 ex_bgra ex_nv12 ex_brighter ex_nv12_buffers m' /\
  (forall x y, 0 <= x < 2 -> 0 <= y < 2 ->
     pixel ex_bgra 2 2 ex_brighter x y = add_rgb (pixel ex_bgra 2 2 ex_bright x y) (grey (ex_bright_k x y))) /\
  dsts m <> dsts m'.
Proof.
  eexists. eexists. split; [destruct set; check_success|]. split; [destruct set; check_success|]. split.
  - intros x y X Y. assert (A : x = 0 \/ x = 1) by lia. assert (B : y = 0 \/ y = 1) by lia.
    destruct A as [-> | ->], B as [-> | ->]; reflexivity.
  - discriminate.
Qed.

(** C68: the other way, more luma moves the three components alike, as far as they are not clamped: exactly by as
    much in the full range spaces, by 255/219 of it, up to one step, in the limited range ones. *)
Theorem C68_decoded : forall set set' T T' w h src src' dst dst' sb sb' db db' m m' k,
  successful_call (converters set) T w h src dst sb db m ->
  successful_call (converters set') T' w h src' dst' sb' db' m' ->
  is_rgb (i_pf src) = false -> is_rgb (i_pf src') = false -> is_rgb (i_pf dst) = true -> is_rgb (i_pf dst') = true ->
  i_cs src' = i_cs src ->
  forall x y, 0 <= x < w -> 0 <= y < h ->
  pixel src' w h sb' x y = add_rgb (pixel src w h sb x y) (k, 0, 0) ->
  let '(r, g, b) := pixel dst w h (dsts m) x y in let '(r', g', b') := pixel dst' w h (dsts m') x y in
  component_follows (i_cs src) k r r' /\ component_follows (i_cs src) k g g' /\ component_follows (i_cs src) k b b'.
Proof. exact decoded_call. Qed.
Print Assumptions C68_decoded.
(** Luma 100 and 130: all components are inside of the range and move by 35 (BT.601), by 30 (full range). *)
Example C68_decoded_example set :
  Forall (fun '(cs, d) => exists m m',
    let src := Image I444 cs 3 None in
    successful_call (converters set) T64_debug 1 1 src ex_bgra [[100]; [140]; [120]] (zeros [4]) m /\
    successful_call (converters set) T64_debug 1 1 src ex_bgra [[130]; [140]; [120]] (zeros [4]) m' /\
    add_rgb (pixel ex_bgra 1 1 (dsts m) 0 0) d = pixel ex_bgra 1 1 (dsts m') 0 0)
  [(Bt601, (35, 35, 35)); (Bt601FR, (30, 30, 30))].
Proof.
  apply Forall_cons; [|apply Forall_cons; [|apply Forall_nil]]; (eexists; eexists; cbv zeta; split; [destruct set; check_success|]; split; [destruct set; check_success|vm_compute; reflexivity]).
Qed.
