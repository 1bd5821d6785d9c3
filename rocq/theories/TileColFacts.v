(** Proofs about the columns of aligned rectangles. *)
From Coq Require Import ZArith List Bool Lia ZifyBool.
Import ListNotations.
From Verif Require Import Base Fmt CpuInfo Spec SimdSpec SetSpec ApiSpec Thread CThreadSpec TileSpec.
Open Scope Z_scope.

Lemma group_cols n A w x0 w' x : (exists c, x0 = n * c) -> 0 < n -> 0 <= x < w' -> x0 + w' <= w -> (w' mod n = 0 \/ x0 + w' = w) ->
  left_cols (n * (w / n)) A (x0 + x) = left_cols (n * (w' / n)) A x.
Proof.
  intros [c ->] N X W H. unfold left_cols.
  assert (E : (n * c + x <? n * (w / n)) = (x <? n * (w' / n))); [|rewrite E; reflexivity].
  destruct H as [H|<-].
  - assert (n * (w' / n) = w') by (pose proof (Z.div_mod w' n ltac:(lia)); lia).
    assert (n * c + w' <= n * (w / n)).
    { pose proof (Z.div_mod w n ltac:(lia)). pose proof (Z.mod_pos_bound w n N). rewrite <- H0 in *. set (d := w' / n) in *. set (e := w / n) in *. assert (c + d <= e) by nia. nia. }
    lia.
  - rewrite Z.add_comm, Z.mul_comm, Z.add_comm, (Z.mul_comm c n). replace (n * c + w') with (w' + c * n) by lia. rewrite Z.div_add by lia. lia.
Qed.
Lemma aligned_columns set hp q r : rect_ok set hp q r -> aligned q r -> same_columns set q r.
Proof.
  intros (X0 & Wd & Xw & _) [A1 A2] x Hx. unfold set_cols.
  assert (G : forall n k A, 0 < n -> k mod n = 0 -> 0 < k -> x0 r mod k = 0 -> wide r mod k = 0 \/ x0 r + wide r = q_w q ->
    left_cols (n * (q_w q / n)) A (x0 r + x) = left_cols (n * (wide r / n)) A x).
  { intros n k A N K Kp B1 B2. apply Z.mod_divide in K; [|lia]. apply Z.mod_divide in B1; [|lia].
    apply group_cols; [|exact N|exact Hx|exact Xw|].
    - destruct (Z.divide_trans _ _ _ K B1) as [c E]. exists c. lia.
    - destruct B2 as [B2|B2]; [left|right; exact B2]. apply Z.mod_divide in B2; [|lia]. apply Z.mod_divide; [lia|]. exact (Z.divide_trans _ _ _ K B2). }
  assert (O : left_cols 0 (vector_arith set) (x0 r + x) = left_cols 0 (vector_arith set) x).
  { unfold left_cols. replace (x0 r + x <? 0) with false by lia. replace (x <? 0) with false by lia. reflexivity. }
  unfold vector_part. destruct set; [reflexivity| | |];
    destruct (i_pf (q_src q)), (i_pf (q_dst q)); cbn [is_rgb bytes_per_pixel Z.eqb Pos.eqb] in *; try exact O;
    (eapply G; [| | |exact A1|exact A2]; [lia|reflexivity|lia]).
Qed.

