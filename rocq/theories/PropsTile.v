(** Properties of a picture that is converted in rectangles, by several threads (C60). *)
From Coq Require Import ZArith List Bool Lia.
Import ListNotations.
From Verif Require Import Base Fmt Wrappers CpuInfo Spec SetSpec ApiSpec AcceptSpec Lib Sets Api PropsConvert PropsPixel BandSpec Thread ThreadSpec TraceSpec
  CThread CThreadSpec CThreadFacts CThreadRunFacts TileSpec TileFacts TileRunFacts TileColFacts PropsCThread.
Open Scope Z_scope.

(** C60: if a picture may be converted by one call, the calls for disjoint rectangles of it may be
    made at the same time. *)
Theorem C60_rectangles_may_run : forall set T hp q rs,
  calls_ok set T hp [q] -> own_buffers (q_src q) -> own_buffers (q_dst q) ->
  (forall r, In r rs -> rect_ok set hp q r) -> rects_apart rs ->
  calls_ok set T hp (map (rect_request q) rs).
Proof. exact tiles_may_run. Qed.
Print Assumptions C60_rectangles_may_run.

(** C60: and if the rectangles cover the picture, then in the end memory holds, in every byte,
    what the one call would have left there, whatever the interleaving. *)
Theorem C60_one_picture : forall set T hp q rs schedule,
  calls_ok set T hp [q] -> own_buffers (q_src q) -> own_buffers (q_dst q) ->
  (forall r, In r rs -> rect_ok set hp q r /\ same_columns set q r) -> rects_apart rs -> rects_cover (q_w q) (q_h q) rs ->
  let st := c_interleave T schedule (c_start set hp (map (rect_request q) rs)) in
  (forall th, In th (snd st) -> exists a, th = Returned a) ->
  (forall th, In th (snd st) -> th = Returned (C_Ok, None)) /\
  (forall n a, in_image (q_dst q) (q_w q) (q_h q) n a -> alone_byte set T hp q n a (fst st (place q n a))) /\
  (forall x, ~ target_byte q x -> fst st x = hp x).
Proof. exact tiles_picture. Qed.
Print Assumptions C60_one_picture.

(** C60: with all instruction sets, columns are computed alike in rectangles that are aligned. *)
Theorem C60_aligned_columns : forall set hp q r, rect_ok set hp q r -> aligned q r -> same_columns set q r.
Proof. exact aligned_columns. Qed.
Print Assumptions C60_aligned_columns.

(** The picture of [C60_example], in its two halves. *)
Definition ex_picture : request :=
  Request 4 2 (Image Bgra CsRgb 1 None) (Image I444 Bt601 3 None) [Region 100 32] [Region 200 8; Region 210 8; Region 220 8].
Definition ex_halves : list rect := [Rect 0 0 2 2; Rect 2 0 2 2].
Example C60_picture_example :
  calls_ok X86 T64_debug ex_chp [ex_picture] /\ own_buffers (q_src ex_picture) /\ own_buffers (q_dst ex_picture) /\
  (forall r, In r ex_halves -> rect_ok X86 ex_chp ex_picture r /\ same_columns X86 ex_picture r) /\
  rects_apart ex_halves /\ rects_cover 4 2 ex_halves /\ map (rect_request ex_picture) ex_halves = [ex_half 0; ex_half 2] /\
  forall th, In th (snd (c_interleave T64_debug (concat (repeat [1; 0; 1]%nat 400)) (c_start X86 ex_chp (map (rect_request ex_picture) ex_halves)))) ->
    exists a, th = Returned a.
Proof.
  assert (IB : forall n a, in_image (q_dst ex_picture) 4 2 n a -> (n = 0 \/ n = 1 \/ n = 2)%nat /\ 0 <= a < 8).
  { intros n a (g & y & j & I & En & Hy & Hj & Ea). cbn in I.
    destruct I as [<-|[<-|[<-|[]]]]; cbn [g_buf g_rows g_row g_base g_stride] in *; lia. }
  assert (E : map (rect_request ex_picture) ex_halves = [ex_half 0; ex_half 2]) by reflexivity.
  split; [|split; [|split; [|split; [|split; [|split; [|split]]]]]].
  - split; [|split].
    + intros q [<-|[]]. split.
      * unfold c_call. cbn [ex_picture q_w q_h q_src q_dst q_from q_to]. split; [check_call|]. split; [check_call|]. split; [lia|]. split; [lia|].
        split; [repeat split; vm_compute; congruence|]. split; [repeat split; vm_compute; congruence|]. split; [reflexivity|].
        split; [split; [vm_compute; congruence|exact I]|]. split; [split; [vm_compute; congruence|exact I]|].
        split; [split; repeat constructor; vm_compute; congruence|]. split; [split; repeat constructor; vm_compute; congruence|].
        split; [repeat constructor; vm_compute; congruence|]. split; repeat constructor; vm_compute; congruence.
      * intros n a n' a' I I' P. destruct (IB n a I) as [Hn Ha], (IB n' a' I') as [Hn' Ha'].
        unfold place in P. destruct Hn as [-> | [-> | ->]], Hn' as [-> | [-> | ->]]; cbn [ex_picture q_to nth r_base] in P; split; lia.
    + intros q q' r x [<-|[]] [<-|[]] (n & a & I & ->) [<-|[]] [J1 J2]. destruct (IB n a I) as [Hn Ha].
      unfold place in *. destruct Hn as [-> | [-> | ->]]; cbn [ex_picture q_to nth r_base r_len] in *; lia.
    + intros [|t] [|u] q q' x Et Eu Ne; [now destruct Ne|destruct u; discriminate Eu|destruct t; discriminate Et|destruct t; discriminate Et].
  - intros P. discriminate P.
  - intros P. discriminate P.
  - intros r Ir. split; [|intros x Hx; reflexivity].
    destruct Ir as [<-|[<-|[]]]; unfold rect_ok; cbn; repeat split; try lia; repeat constructor; vm_compute; congruence.
  - intros t u r r' x y Et Eu Ne [A1 A2] [B1 B2].
    destruct t as [|[|t]]; [| |destruct t; discriminate Et]; (destruct u as [|[|u]]; [| |destruct u; discriminate Eu]);
      cbn [ex_halves nth_error] in Et, Eu; try (now destruct Ne); injection Et as <-; injection Eu as <-; cbn [x0 y0 wide high] in *; lia.
  - intros x y Hx Hy. destruct (Z_lt_ge_dec x 2); [exists (Rect 0 0 2 2)|exists (Rect 2 0 2 2)];
      (split; [cbn; auto|]); split; cbn [x0 y0 wide high]; lia.
  - exact E.
  - rewrite E. rewrite (proj1 (proj2 C60_example)). intros th [<-|[<-|[]]]; eexists; reflexivity.
Qed.
Definition ex_large : request :=
  Request 100 6 (Image Bgr CsRgb 1 None) (Image Nv12 Bt601 2 None) [Region 1000 1808] [Region 4000 600; Region 5000 300].
Example C60_aligned_example : rect_ok CpuInfo.Avx2 ex_chp ex_large (Rect 48 2 52 4) /\ aligned ex_large (Rect 48 2 52 4).
Proof. split; [unfold rect_ok; cbn; repeat split; try lia; repeat constructor; vm_compute; congruence|split; [reflexivity|right; reflexivity]]. Qed.
