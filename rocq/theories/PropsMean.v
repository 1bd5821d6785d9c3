(** Subsampled chroma is the average of full chroma (C67). *)
From Coq Require Import ZArith List Bool Lia.
Import ListNotations.
From Verif Require Import Base Fmt CpuInfo Lib Sets Spec SetSpec ApiSpec Api PropsConvert PropsPixel MeanFacts.
Open Scope Z_scope.

(** C67: the chroma of a block of I420 or NV12 differs by less than one from the average of the four that
    I444 gives the pixels of the block; by at most one if the two images were converted on different
    instruction sets. *)
Theorem C67_average : forall set set' T T' w h src full sub sb db db' m m',
  successful_call (converters set) T w h src full sb db m ->
  successful_call (converters set') T' w h src sub sb db' m' ->
  is_rgb (i_pf src) = true -> i_pf full = I444 -> i_pf sub = I420 \/ i_pf sub = Nv12 -> i_cs sub = i_cs full ->
  forall x y, 0 <= x < w / 2 -> 0 <= y < h / 2 ->
  let '(_, cb, cr) := pixel sub w h (dsts m') (2 * x) (2 * y) in
  let '(_, cb4, cr4) := block_sum (pixel full w h (dsts m)) x y in
  Z.abs (4 * cb - cb4) <= 4 /\ Z.abs (4 * cr - cr4) <= 4 /\
  (set = set' -> Z.abs (4 * cb - cb4) < 4 /\ Z.abs (4 * cr - cr4) < 4).
Proof. exact mean_lt. Qed.
Print Assumptions C67_average.
(** The sum of the four blue differences is 451, and the one of the block is 112: 3 is reached. *)
Definition ex_mean_444 : image := Image I444 Bt601 3 None.
Definition ex_mean_420 : image := Image I420 Bt601 3 None.
Definition ex_mean : list (list Z) := [[130; 32; 68; 9;  230; 253; 60; 9;  107; 194; 241; 9;  14; 249; 48; 9]].
Example C67_example set : exists m m',
  successful_call (converters set) T64_debug 2 2 ex_bgra ex_mean_444 ex_mean (zeros [4; 4; 4]) m /\
  successful_call (converters set) T64_debug 2 2 ex_bgra ex_mean_420 ex_mean (zeros [4; 1; 1]) m' /\
  snd (fst (pixel ex_mean_420 2 2 (dsts m') 0 0)) = 112 /\ snd (fst (block_sum (pixel ex_mean_444 2 2 (dsts m)) 0 0)) = 451.
Proof. eexists. eexists. split; [destruct set; check_success|]. split; [destruct set; check_success|]. split; reflexivity. Qed.
