(** The scalar RGB re-ordering kernels copy every component to its place. *)
From Coq Require Import ZArith List Bool Lia ZifyBool ZifyNat.
Import ListNotations.
From Verif Require Import Base Exec Area Fmt Common Scalar Spec PixelFacts KernelBase
  ForwardProofs BackwardProofs Bytes.
Open Scope Z_scope.

(** ** Words *)
Ltac side_byte := first [assumption | unfold is_byte; cbn; lia].
Ltac clean_bytes :=
  cbn [map2 app repeat skipn firstn rev Nat.sub];
  rewrite ?land_0, ?Z.land_0_l, ?lor_0, ?lor_0', ?land_255 by side_byte;
  rewrite ?lor_0, ?lor_0', ?lor_255 by side_byte.
Ltac word_step :=
  first
  [ rewrite shr_bytes; [| solve_bytes | cbn; lia]
  | rewrite (shl_bytes 8); [| solve_bytes | cbn; lia | reflexivity]
  | rewrite (shl_bytes 4); [| solve_bytes | cbn; lia | reflexivity]
  | rewrite swap64_bytes; [| solve_bytes | reflexivity]
  | rewrite swap32_bytes; [| solve_bytes | reflexivity]
  | rewrite land_of_bytes; [| solve_bytes | solve_bytes | reflexivity]
  | rewrite lor_of_bytes; [| solve_bytes | solve_bytes | reflexivity] ];
  clean_bytes.
Ltac open_bytes :=
  repeat match goal with
  | H : bytes (_ :: _) |- _ => inversion H; clear H; subst
  | H : Forall _ (_ :: _) |- _ => inversion H; clear H; subst
  | H : Forall _ [] |- _ => clear H
  end.

Lemma rgb_to_bgra_word64_bytes b0 b1 b2 b3 b4 b5 b6 b7 :
  bytes [b0; b1; b2; b3; b4; b5; b6; b7] ->
  rgb_to_bgra_word64 (of_bytes [b0; b1; b2; b3; b4; b5; b6; b7])
  = of_bytes [b2; b1; b0; 255; b5; b4; b3; 255].
Proof.
  intros H. open_bytes.
  unfold rgb_to_bgra_word64, u64.
  change (2 ^ 64) with (256 ^ Z.of_nat 8).
  change 16 with (8 * Z.of_nat 2). change 40 with (8 * Z.of_nat 5).
  change 0x00000000FFFFFFFF with (of_bytes [255; 255; 255; 255; 0; 0; 0; 0]).
  change 0xFFFFFFFF00000000 with (of_bytes [0; 0; 0; 0; 255; 255; 255; 255]).
  change 0x000000FF000000FF with (of_bytes [255; 0; 0; 0; 255; 0; 0; 0]).
  repeat word_step. reflexivity.
Qed.

Lemma rgb_to_bgra_word32_bytes b0 b1 b2 b3 :
  bytes [b0; b1; b2; b3] ->
  rgb_to_bgra_word32 (of_bytes [b0; b1; b2; b3]) = of_bytes [b2; b1; b0; 255].
Proof.
  intros H. open_bytes.
  unfold rgb_to_bgra_word32, u32.
  change (2 ^ 32) with (256 ^ Z.of_nat 4).
  match goal with
  | |- context [Z.shiftl ?x 8] => change (Z.shiftl x 8) with (Z.shiftl x (8 * Z.of_nat 1))
  end.
  change 0xFF with (of_bytes [255; 0; 0; 0]).
  repeat word_step. reflexivity.
Qed.

Lemma bgra_to_rgb_word_bytes b0 b1 b2 b3 b4 b5 b6 b7 :
  bytes [b0; b1; b2; b3; b4; b5; b6; b7] ->
  bgra_to_rgb_word (of_bytes [b0; b1; b2; b3; b4; b5; b6; b7])
  = of_bytes [b2; b1; b0; b6; b5; b4; 0; 0].
Proof.
  intros H. open_bytes.
  unfold bgra_to_rgb_word, u64.
  change (2 ^ 64) with (256 ^ Z.of_nat 8).
  change 16 with (8 * Z.of_nat 2). change 40 with (8 * Z.of_nat 5).
  change 0xFFFFFF0000000000 with (of_bytes [0; 0; 0; 0; 0; 255; 255; 255]).
  change 0x000000FFFFFF0000 with (of_bytes [0; 0; 255; 255; 255; 0; 0; 0]).
  repeat word_step. reflexivity.
Qed.

Lemma bgr_to_rgb_words_bytes a0 a1 a2 a3 a4 a5 a6 a7 b0 b1 b2 b3 b4 b5 b6 b7 c0 c1 c2 c3 c4 c5 c6 c7 :
  bytes [a0; a1; a2; a3; a4; a5; a6; a7] -> bytes [b0; b1; b2; b3; b4; b5; b6; b7] ->
  bytes [c0; c1; c2; c3; c4; c5; c6; c7] ->
  bgr_to_rgb_words (of_bytes [a0; a1; a2; a3; a4; a5; a6; a7])
    (of_bytes [b0; b1; b2; b3; b4; b5; b6; b7]) (of_bytes [c0; c1; c2; c3; c4; c5; c6; c7])
  = (of_bytes [a2; a1; a0; a5; a4; a3; b0; a7],
     of_bytes [a6; b3; b2; b1; b6; b5; b4; c1],
     of_bytes [c0; b7; c4; c3; c2; c7; c6; c5]).
Proof.
  intros Ha Hb Hc. open_bytes.
  unfold bgr_to_rgb_words, u64. cbv zeta.
  change (2 ^ 64) with (256 ^ Z.of_nat 8).
  change 40 with (8 * Z.of_nat 5). change 56 with (8 * Z.of_nat 7). change 24 with (8 * Z.of_nat 3).
  repeat match goal with
  | |- context [Z.shiftl ?x 8] => change (Z.shiftl x 8) with (Z.shiftl x (8 * Z.of_nat 1))
  | |- context [Z.shiftr ?x 8] => change (Z.shiftr x 8) with (Z.shiftr x (8 * Z.of_nat 1))
  end.
  change 0x0000FFFFFF000000 with (of_bytes [0; 0; 0; 255; 255; 255; 0; 0]).
  change 0xFF00000000000000 with (of_bytes [0; 0; 0; 0; 0; 0; 0; 255]).
  change 0xFFFFFF00 with (of_bytes [0; 255; 255; 255; 0; 0; 0; 0]).
  change 0x00FFFFFF00000000 with (of_bytes [0; 0; 0; 0; 255; 255; 255; 0]).
  change 0x00FF000000000000 with (of_bytes [0; 0; 0; 0; 0; 0; 255; 0]).
  change 0xFF00 with (of_bytes [0; 255; 0; 0; 0; 0; 0; 0]).
  change 0xFFFFFF with (of_bytes [255; 255; 255; 0; 0; 0; 0; 0]).
  change 0xFFFFFF0000 with (of_bytes [0; 0; 255; 255; 255; 0; 0; 0]).
  rewrite !swap64_bytes by (solve_bytes || reflexivity). cbn [rev app].
  repeat match goal with
  | |- context [Z.land ?x 255] => change (Z.land x 255) with (Z.land x (of_bytes [255; 0; 0; 0; 0; 0; 0; 0]))
  end.
  repeat word_step. reflexivity.
Qed.

Lemma write_eq (n : nat) (a v a' v' : Z) : a = a' -> v = v' -> (n, a, v) = (n, a', v').
Proof. intros -> ->. reflexivity. Qed.

(** ** Rows *)
Definition row (n : nat) (b c : Z) (f : Z -> Z) : wset := in_area (Area n b 0 1 c (fun _ j => f j)).
Definition bytes_row (n : nat) (b : Z) (l : list Z) : wset :=
  row n b (zlen l) (fun j => nth (Z.to_nat j) l 0).

Lemma row_iff n b c f w :
  row n b c f w <-> exists j, 0 <= j < c /\ w = (n, b + j, f j).
Proof.
  unfold row, in_area; cbn. split.
  - intros (y & j & Hy & Hj & ->). exists j. split; auto. do 2 f_equal. lia.
  - intros (j & Hj & ->). exists 0, j. repeat split; try lia. do 2 f_equal. lia.
Qed.

Lemma row_ext n b c f b' c' g w : b = b' -> c = c' -> (forall j, 0 <= j < c -> f j = g j) ->
  row n b c f w <-> row n b' c' g w.
Proof.
  intros -> -> H. rewrite !row_iff. split; intros (j & Hj & ->); exists j; rewrite H by auto; auto.
Qed.

Lemma row_app n b c1 c2 f w : 0 <= c1 -> 0 <= c2 ->
  row n b (c1 + c2) f w <-> row n b c1 f w \/ row n (b + c1) c2 (fun j => f (c1 + j)) w.
Proof. intros. unfold row. rewrite area_cols by auto. reflexivity. Qed.

Lemma row_chunks n b c f a k w : 0 < c -> 0 <= k ->
  row n (b + c * a) (c * k) (fun j => f (c * a + j)) w <->
  exists i, a <= i < a + k /\ row n (b + c * i) c (fun j => f (c * i + j)) w.
Proof.
  intros Hc Hk. setoid_rewrite row_iff. split.
  - intros (j & Hj & ->).
    pose proof (Z.div_mod j c ltac:(lia)). pose proof (Z.mod_pos_bound j c Hc).
    exists (a + j / c). split; [nia|]. exists (j mod c). split; [lia|].
    replace (c * (a + j / c) + j mod c) with (c * a + j) by lia. do 2 f_equal. lia.
  - intros (i & Hi & j & Hj & ->). exists (c * (i - a) + j). split; [nia|].
    replace (c * a + (c * (i - a) + j)) with (c * i + j) by lia. do 2 f_equal. lia.
Qed.

Lemma bytes_row_app n b l1 l2 w :
  bytes_row n b (l1 ++ l2) w <-> bytes_row n b l1 w \/ bytes_row n (b + zlen l1) l2 w.
Proof.
  unfold bytes_row. unfold zlen at 1. rewrite app_length, Nat2Z.inj_add.
  change (Z.of_nat (length l1)) with (zlen l1). change (Z.of_nat (length l2)) with (zlen l2).
  rewrite row_app by apply zlen_nonneg. unfold zlen. apply or_iff; apply row_ext; auto.
  - intros j Hj. rewrite app_nth1 by lia. reflexivity.
  - intros j Hj. rewrite app_nth2 by lia. f_equal. lia.
Qed.

Lemma bytes_row_cons2 n b l1 l2 k w : zlen l1 = k ->
  bytes_row n b l1 w \/ bytes_row n (b + k) l2 w <-> bytes_row n b (l1 ++ l2) w.
Proof. intros <-. rewrite bytes_row_app. reflexivity. Qed.

Lemma out_rows pf col n s stride h w wr :
  in_area (out_area pf col n s stride h w) wr <->
  exists y, 0 <= y < h /\
    row n (s_off s + stride * y) (bytes_per_pixel pf * w)
        (fun j => pixel_byte pf (col (j / bytes_per_pixel pf) y) (j mod bytes_per_pixel pf)) wr.
Proof.
  unfold out_area. rewrite area_rows. unfold row.
  split; intros (y & Hy & H); exists y; split; auto.
  - rewrite (area_row _ _ stride 0) in H. revert H. apply area_ext'; auto; lia.
  - rewrite (area_row _ _ stride 0). revert H. apply area_ext'; auto; lia.
Qed.

(** Case analysis on [0 <= j < n] for a small literal [n]. *)
Ltac cases_j j H :=
  match type of H with
  | 0 <= j < ?n =>
    let rec go k :=
      match k with
      | n => exfalso; lia
      | _ => destruct (Z.eq_dec j k) as [->|?];
             [ | let k' := eval compute in (k + 1) in go k' ]
      end in go 0
  end.

(** Computes the closed subterms left by [cases_j]. *)
Ltac fold_lits :=
  repeat match goal with
  | |- context [Z.to_nat ?k] =>
      let v := eval vm_compute in (Z.to_nat k) in change (Z.to_nat k) with v
  | |- context [?k / ?d] =>
      let v := eval vm_compute in (k / d) in
      match v with Z0 => idtac | Zpos _ => idtac end; change (k / d) with v
  | |- context [?k mod ?d] =>
      let v := eval vm_compute in (k mod d) in
      match v with Z0 => idtac | Zpos _ => idtac end; change (k mod d) with v
  end;
  cbn [nth pixel_byte component_offsets Z.eqb Pos.eqb].

Section Reorder.
Variable T : target.
Variable ms : list (list Z).
Variable dl : list nat.
Hypothesis HB : bytes_ok ms.

Notation exec := (exec T ms dl).
Notation runs := (runs T ms dl).
Notation fits := (fits ms dl).
Notation src_ok := (src_ok T ms dl).
Notation dst_ok := (dst_ok T ms dl).

(** Colour of pixel (x, y) of a packed source slice in format [pf]. *)
Definition pcol (pf : pixel_format) (s : slice) (stride x y : Z) : rgb :=
  let '(o1, o2, o3) := component_offsets pf in
  let o := stride * y + bytes_per_pixel pf * x in
  (byte ms s (o + o1), byte ms s (o + o2), byte ms s (o + o3)).

Lemma bytes_map s i n : bytes (map (byte ms s) (zseq i n)).
Proof. apply Forall_forall. intros x Hx. apply in_map_iff in Hx. destruct Hx as (k & <- & _). apply byte_range; auto. Qed.

Lemma exec_in_order l : big T = false -> exec (in_order l) [] l.
Proof. intros L m _. (unfold in_order; cbn [run]). rewrite L. reflexivity. Qed.

Lemma exec_ld_u64 s i : src_ok s -> 0 <= i -> i + 8 <= cap ms dl s ->
  exec (ld_u64 s i) [] (of_bytes (map (byte ms s) (zseq i 8))).
Proof.
  intros (H1 & H2 & _ & L) Hi Hl. unfold ld_u64, ld_word. eapply exec_bind0; [apply exec_ldn; auto; lia|].
  eapply exec_bind0; [apply exec_in_order; exact L|]. apply exec_ret.
Qed.
Lemma exec_ld_u32 s i : src_ok s -> 0 <= i -> i + 4 <= cap ms dl s ->
  exec (ld_u32 s i) [] (of_bytes (map (byte ms s) (zseq i 4))).
Proof.
  intros (H1 & H2 & _ & L) Hi Hl. unfold ld_u32, ld_word. eapply exec_bind0; [apply exec_ldn; auto; lia|].
  eapply exec_bind0; [apply exec_in_order; exact L|]. apply exec_ret.
Qed.

Lemma runs_stn_row s n i l : dst_ok s n -> 0 <= i -> i + zlen l <= cap ms dl s ->
  runs (stn s i l) (bytes_row n (s_off s + i) l) tt.
Proof. intros (H1 & H2 & _) Hi Hl. apply runs_stn; auto. Qed.

Lemma runs_st_u64 s n i l : dst_ok s n -> bytes l -> length l = 8%nat -> 0 <= i -> i + 8 <= cap ms dl s ->
  runs (st_u64 s i (of_bytes l)) (bytes_row n (s_off s + i) l) tt.
Proof.
  intros Hs Hb E Hi Hl. unfold st_u64, st_word. rewrite <- E, to_of_bytes by auto.
  eapply runs_bind0; [apply exec_in_order; apply Hs|].
  apply runs_stn_row; auto. unfold zlen. lia.
Qed.
Lemma runs_st_u32 s n i l : dst_ok s n -> bytes l -> length l = 4%nat -> 0 <= i -> i + 4 <= cap ms dl s ->
  runs (st_u32 s i (of_bytes l)) (bytes_row n (s_off s + i) l) tt.
Proof.
  intros Hs Hb E Hi Hl. unfold st_u32, st_word. rewrite <- E, to_of_bytes by auto.
  eapply runs_bind0; [apply exec_in_order; apply Hs|].
  apply runs_stn_row; auto. unfold zlen. lia.
Qed.

(** *** RGB to BGRA *)
Section RgbBgra.
Variables src dst : slice.
Variable n : nat.
Hypothesis Hs : src_ok src.
Hypothesis Hd : dst_ok dst n.

Notation B := (byte ms src).

(** The bytes of destination row [y]: pixel [x] comes from source offset [so + 3x]. *)
Definition bgra_row (so j : Z) : Z :=
  pixel_byte Bgra (B (so + 3 * (j / 4)), B (so + 3 * (j / 4) + 1), B (so + 3 * (j / 4) + 2)) (j mod 4).

Lemma bgra_row_at so k r : 0 <= r < 4 ->
  bgra_row so (4 * k + r) = pixel_byte Bgra (B (so + 3 * k), B (so + 3 * k + 1), B (so + 3 * k + 2)) r.
Proof. intros H. unfold bgra_row. rewrite div_mul_add, mod_mul_add by lia. reflexivity. Qed.

Ltac byte_any := intros; apply byte_range; auto.
Ltac st64 HBy := eapply runs_st_u64; [exact Hd|solve_bytes; apply HBy|reflexivity|lia|lia].

Lemma runs_step8 i so do_ :
  0 <= i -> 0 <= so -> 0 <= do_ ->
  so + 24 * i + 26 <= cap ms dl src -> do_ + 32 * i + 32 <= cap ms dl dst ->
  so + 24 * (i + 1) < usz T -> do_ + 32 * (i + 1) < usz T -> 8 * (i + 1) < usz T ->
  runs (rgb_to_bgra_step8 src dst (8 * i, so + 24 * i, do_ + 32 * i))
    (row n (s_off dst + do_ + 32 * i) 32 (fun j => bgra_row so (32 * i + j)))
    (8 * (i + 1), so + 24 * (i + 1), do_ + 32 * (i + 1)).
Proof.
  intros Hi Hso Hdo Ls Ld Os Od Ox. unfold rgb_to_bgra_step8.
  set (s0 := so + 24 * i) in *. set (d0 := do_ + 32 * i) in *.
  assert (0 <= s0) by lia. assert (0 <= d0) by lia.
  eapply runs_iff.
  - eapply runs_bind0; [apply exec_ld_u64; auto; lia|].
    eapply runs_bind0; [apply exec_uadd; lia|].
    eapply runs_bind0; [apply exec_ld_u64; auto; lia|].
    eapply runs_bind0; [apply exec_uadd; lia|].
    eapply runs_bind0; [apply exec_ld_u64; auto; lia|].
    eapply runs_bind0; [apply exec_uadd; lia|].
    eapply runs_bind0; [apply exec_ld_u64; auto; lia|].
    cbn [zseq map].
    rewrite !rgb_to_bgra_word64_bytes by (solve_bytes; apply byte_range; auto).
    assert (HBy : forall i, is_byte (B i)) by (intros; apply byte_range; auto).
    eapply runs_bind; [st64 HBy|].
    eapply runs_bind; [st64 HBy|].
    eapply runs_bind; [st64 HBy|].
    eapply runs_bind1; [st64 HBy|].
    eapply exec_bind0; [apply exec_uadd; lia|].
    eapply exec_bind0; [apply exec_uadd; lia|].
    eapply exec_bind0; [apply exec_uadd; lia|].
    eapply exec_eq; [apply exec_ret|reflexivity|].
    unfold s0, d0. apply f_equal2; [apply f_equal2|]; lia.
  - intros wr. unfold wunion.
    replace (s_off dst + (d0 + 8)) with (s_off dst + d0 + 8) by lia.
    replace (s_off dst + (d0 + 16)) with (s_off dst + d0 + 8 + 8) by lia.
    replace (s_off dst + (d0 + 24)) with (s_off dst + d0 + 8 + 8 + 8) by lia.
    rewrite !bytes_row_cons2 by reflexivity. cbn [app].
    unfold bytes_row. apply row_ext; [unfold d0; lia|reflexivity|].
    intros j Hj. change (zlen _) with 32 in Hj.
    unfold s0. clear - Hj.
    replace (32 * i + j) with (4 * (8 * i + j / 4) + j mod 4)
      by (pose proof (Z.div_mod j 4); lia).
    rewrite bgra_row_at by (apply Z.mod_pos_bound; lia).
    cases_j j Hj; fold_lits; try reflexivity; f_equal; lia.
Qed.


Lemma runs_step1 i so do_ :
  0 <= i -> 0 <= so -> 0 <= do_ ->
  so + 3 * i + 4 <= cap ms dl src -> do_ + 4 * i + 4 <= cap ms dl dst ->
  so + 3 * (i + 1) < usz T -> do_ + 4 * (i + 1) < usz T -> i + 1 < usz T ->
  runs (rgb_to_bgra_step1 src dst (i, so + 3 * i, do_ + 4 * i))
    (row n (s_off dst + do_ + 4 * i) 4 (fun j => bgra_row so (4 * i + j)))
    (i + 1, so + 3 * (i + 1), do_ + 4 * (i + 1)).
Proof.
  intros Hi Hso Hdo Ls Ld Os Od Ox. unfold rgb_to_bgra_step1.
  assert (HBy : forall i, is_byte (B i)) by (intros; apply byte_range; auto).
  eapply runs_iff.
  - eapply runs_bind0; [apply exec_ld_u32; auto; lia|].
    cbn [zseq map].
    rewrite rgb_to_bgra_word32_bytes by (solve_bytes; apply HBy).
    eapply runs_bind1; [eapply runs_st_u32; [exact Hd|solve_bytes; apply HBy|reflexivity|lia|lia]|].
    eapply exec_bind0; [apply exec_uadd; lia|].
    eapply exec_bind0; [apply exec_uadd; lia|].
    eapply exec_bind0; [apply exec_uadd; lia|].
    eapply exec_eq; [apply exec_ret|reflexivity|].
    apply f_equal2; [apply f_equal2|]; lia.
  - intros wr. unfold bytes_row. apply row_ext; [lia|reflexivity|].
    intros j Hj. change (zlen _) with 4 in Hj. rewrite bgra_row_at by lia.
    cases_j j Hj; fold_lits; try reflexivity; f_equal; lia.
Qed.

(** The last pixel of a line, copied byte by byte. *)
Lemma runs_last width i so do_ :
  0 <= i <= width -> width <= i + 1 -> 0 <= so -> 0 <= do_ ->
  so + 3 * width <= cap ms dl src -> do_ + 4 * width <= cap ms dl dst ->
  so + 3 * width < usz T -> do_ + 4 * width < usz T ->
  runs (rgb_to_bgra_last src dst width (i, so + 3 * i, do_ + 4 * i))
    (row n (s_off dst + do_ + 4 * i) (4 * (width - i)) (fun j => bgra_row so (4 * i + j)))
    (so + 3 * width, do_ + 4 * width).
Proof.
  intros Hi Hw Hso Hdo Ls Ld Os Od. unfold rgb_to_bgra_last.
  destruct (Z.ltb_spec i width) as [Hlt|Hge].
  - replace width with (i + 1) in * by lia.
    destruct Hs as (Hs1 & Hs2 & _). destruct Hd as (Hd1 & Hd2 & _).
    eapply runs_iff.
    + eapply runs_bind0; [apply exec_uadd; lia|].
      eapply runs_bind0; [apply exec_ld; auto; lia|].
      eapply runs_bind; [eapply runs_st; eauto; lia|].
      eapply runs_bind0; [apply exec_uadd; lia|].
      eapply runs_bind0; [apply exec_ld; auto; lia|].
      eapply runs_bind0; [apply exec_uadd; lia|].
      eapply runs_bind; [eapply runs_st; eauto; lia|].
      eapply runs_bind0; [apply exec_ld; auto; lia|].
      eapply runs_bind0; [apply exec_uadd; lia|].
      eapply runs_bind; [eapply runs_st; eauto; lia|].
      eapply runs_bind0; [apply exec_uadd; lia|].
      eapply runs_bind1; [eapply runs_st; eauto; lia|].
      eapply exec_bind0; [apply exec_uadd; lia|].
      eapply exec_bind0; [apply exec_uadd; lia|].
      eapply exec_eq; [apply exec_ret|reflexivity|]. apply f_equal2; lia.
    + intros wr. unfold wunion. rewrite row_iff. split.
      * intros [->|[->|[->| ->]]]; [exists 0|exists 1|exists 2|exists 3];
          (split; [lia|]); rewrite bgra_row_at by lia;
          cbn [pixel_byte component_offsets Z.eqb Pos.eqb]; (apply write_eq; [lia|first [reflexivity | f_equal; lia]]).
      * intros (j & Hj & ->). rewrite bgra_row_at by lia.
        assert (j = 0 \/ j = 1 \/ j = 2 \/ j = 3) as [->|[->|[->| ->]]] by lia;
          cbn [pixel_byte component_offsets Z.eqb Pos.eqb];
          [left|right;left|right;right;left|right;right;right];
          (apply write_eq; [lia|first [reflexivity | f_equal; lia]]).
  - replace i with width in * by lia.
    eapply runs_iff; [apply runs_ret|].
    intros wr. unfold wempty. rewrite row_iff. split; [tauto|]. intros (j & Hj & _). lia.
Qed.

Lemma runs_line width height y ss ds :
  0 < width -> 0 <= y < height -> height < usz T -> 8 * width < usz T ->
  3 * width <= ss -> 4 * width <= ds ->
  fits src ss height (3 * width) -> fits dst ds height (4 * width) ->
  ss * height < usz T -> ds * height < usz T ->
  runs (rgb_to_bgra_line width height (ss - 3 * width) (ds - 4 * width) src dst (y, ss * y, ds * y))
    (row n (s_off dst + ds * y) (4 * width) (bgra_row (ss * y)))
    (y + 1, ss * (y + 1), ds * (y + 1)).
Proof.
  intros Hw Hy Hh Hw8 Hss Hds Fs Fd Os Od. unfold rgb_to_bgra_line.
  assert (Hso : 0 <= ss * y) by nia. assert (Hdo : 0 <= ds * y) by nia.
  assert (Ls : ss * y + 3 * width <= cap ms dl src) by (destruct Fs; nia).
  assert (Ld : ds * y + 4 * width <= cap ms dl dst) by (destruct Fd; nia).
  assert (Us : ss * (y + 1) <= ss * height) by nia.
  assert (Ud : ds * (y + 1) <= ds * height) by nia.
  assert (Es : ss * (y + 1) = ss * y + ss) by ring.
  assert (Ed : ds * (y + 1) = ds * y + ds) by ring.
  assert (Ls' : y <> height - 1 -> ss * y + ss + 3 * width <= cap ms dl src) by (intros; destruct Fs; nia).
  set (so := ss * y) in *. set (do_ := ds * y) in *. clearbody so do_.
  eapply runs_bind0; [apply exec_usub; lia|]. cbv zeta.
  set (single := if (y =? height - 1) || (ss - 3 * width <? 1) then width - 1 else width).
  set (m := if (y =? height - 1) || ((8 * (width / 8) =? width) && (ss - 3 * width <? 2))
            then (width - 1) / 8 else width / 8).
  eapply runs_bind0 with (v1 := single).
  { unfold single. destruct ((y =? height - 1) || (ss - 3 * width <? 1)).
    - apply exec_usub; lia. - apply exec_ret. }
  eapply runs_bind0 with (v1 := 8 * m).
  { unfold m. destruct ((y =? height - 1) || ((8 * (width / 8) =? width) && (ss - 3 * width <? 2))).
    - eapply exec_bind0; [apply exec_usub; lia|]. apply exec_ret.
    - apply exec_ret. }
  assert (Hm : 0 <= m /\ 8 * m <= width /\ width < 8 * m + 9 /\ (8 * m <= single) /\ single <= width <= single + 1 /\
    (forall i, 0 <= i < m -> so + 24 * i + 26 <= cap ms dl src) /\
    (forall i, 0 <= i < single -> so + 3 * i + 4 <= cap ms dl src)).
  { pose proof (Z.div_mod width 8 ltac:(lia)). pose proof (Z.mod_pos_bound width 8 ltac:(lia)).
    pose proof (Z.div_mod (width - 1) 8 ltac:(lia)). pose proof (Z.mod_pos_bound (width - 1) 8 ltac:(lia)).
    subst m single.
    destruct (Z.eqb_spec y (height - 1)), (Z.eqb_spec (8 * (width / 8)) width),
      (Z.ltb_spec (ss - 3 * width) 2), (Z.ltb_spec (ss - 3 * width) 1); cbn [orb andb];
      try (specialize (Ls' ltac:(assumption)));
      repeat split; intros; lia. }
  destruct Hm as (Hm0 & Hm1 & Hm2 & Hm3 & Hm4 & Hm5 & Hm6). clearbody m single.
  replace ((8 * m + 7) / 8) with m.
  2:{ symmetry. apply (div_mul_add 8 m 7). lia. }
  pose proof (runs_loop0 T ms dl m (fun i => (8 * i, so + 24 * i, do_ + 32 * i)) (rgb_to_bgra_step8 src dst)
    (fun i => row n (s_off dst + do_ + 32 * i) 32 (fun j => bgra_row so (32 * i + j)))) as L8.
  cbv beta in L8. rewrite !Z.mul_0_r, !Z.add_0_r in L8.
  assert (Hb2 : forall wr, (exists i, 0 <= i < m /\ row n (s_off dst + do_ + 32 * i) 32 (fun j => bgra_row so (32 * i + j)) wr)
     <-> row n (s_off dst + do_) (32 * m) (bgra_row so) wr).
  { intros wr. rewrite <- (row_chunks n (s_off dst + do_) 32 (bgra_row so) 0 m wr) by lia.
    apply row_ext; try lia. intros; f_equal; lia. }
  pose proof (runs_loop T ms dl (Z.to_nat (single - 8 * m)) (fun i => (i, so + 3 * i, do_ + 4 * i))
    (rgb_to_bgra_step1 src dst)
    (fun i => row n (s_off dst + do_ + 4 * i) 4 (fun j => bgra_row so (4 * i + j))) (8 * m)) as L1.
  cbv beta in L1.
  replace (8 * m + Z.of_nat (Z.to_nat (single - 8 * m))) with (8 * m + (single - 8 * m)) in L1 by lia.
  assert (Hb1 : forall wr, (exists i, 8 * m <= i < 8 * m + (single - 8 * m) /\
        row n (s_off dst + do_ + 4 * i) 4 (fun j => bgra_row so (4 * i + j)) wr)
     <-> row n (s_off dst + do_ + 4 * (8 * m)) (4 * (single - 8 * m)) (fun j => bgra_row so (4 * (8 * m) + j)) wr).
  { intros wr. rewrite <- (row_chunks n (s_off dst + do_) 4 (bgra_row so) (8 * m)) by lia. reflexivity. }
  replace (8 * m + (single - 8 * m)) with single in L1, Hb1 by lia.
  eapply runs_iff.
  - eapply runs_bind.
    { apply L8; auto. intros i Hi. apply runs_step8; try lia; apply Hm5; lia. }
    cbn [fst].
    eapply runs_bind.
    { replace (so + 24 * m) with (so + 3 * (8 * m)) by lia.
      replace (do_ + 32 * m) with (do_ + 4 * (8 * m)) by lia.
      apply L1. intros i Hi. apply runs_step1; try lia; apply Hm6; lia. }
    eapply runs_bind1; [apply runs_last with (width := width); lia|].
    cbv beta iota.
    eapply exec_bind0; [apply exec_uadd; lia|].
    eapply exec_bind0; [apply exec_uadd; lia|].
    eapply exec_eq; [apply exec_ret|reflexivity|].
    apply f_equal2; [apply f_equal2|]; lia.
  - intros wr. unfold wunion. rewrite Hb2, Hb1.
    replace (4 * width) with (32 * m + (4 * (single - 8 * m) + 4 * (width - single))) by lia.
    rewrite row_app by lia. rewrite row_app by lia.
    apply or_iff; [reflexivity|]. apply or_iff; apply row_ext; try lia; intros; f_equal; lia.
Qed.

Lemma runs_rgb_to_bgra width height ss ds :
  0 < width -> 0 < height -> height < usz T -> 8 * width < usz T ->
  3 * width <= ss -> 4 * width <= ds ->
  fits src ss height (3 * width) -> fits dst ds height (4 * width) ->
  ss * height < usz T -> ds * height < usz T ->
  runs (rgb_to_bgra width height ss src ds dst)
    (in_areas [out_area Bgra (pcol Rgb src ss) n dst ds height width]) tt.
Proof.
  intros Hw Hh Hh' Hw8 Hss Hds Fs Fd Os Od. unfold rgb_to_bgra.
  assert (ss <= ss * height) by nia. assert (ds <= ds * height) by nia.
  eapply runs_bind0; [apply exec_umul; lia|].
  eapply runs_bind0; [apply exec_usub; lia|].
  eapply runs_bind0; [apply exec_umul; lia|].
  eapply runs_bind0; [apply exec_usub; lia|].
  pose proof (runs_loop0 T ms dl height (fun y => (y, ss * y, ds * y))
    (rgb_to_bgra_line width height (ss - 3 * width) (ds - 4 * width) src dst)
    (fun y => row n (s_off dst + ds * y) (4 * width) (bgra_row (ss * y)))) as L.
  cbv beta in L. rewrite !Z.mul_0_r in L.
  eapply runs_iff.
  - eapply runs_bind1; [|apply exec_ret]. apply L; [|lia].
    intros y Hy. apply runs_line; auto.
  - intros wr. cbn [in_areas]. unfold wunion, wempty. rewrite out_rows.
    assert (HR : forall y, row n (s_off dst + ds * y) (4 * width) (bgra_row (ss * y)) wr <->
      row n (s_off dst + ds * y) (bytes_per_pixel Bgra * width)
        (fun j => pixel_byte Bgra (pcol Rgb src ss (j / bytes_per_pixel Bgra) y) (j mod bytes_per_pixel Bgra)) wr).
    { intros y. apply row_ext; auto. intros j _. unfold bgra_row, pcol.
      cbn [component_offsets bytes_per_pixel]. rewrite Z.add_0_r. reflexivity. }
    split.
    + intros (y & Hy & H'). left. exists y. split; auto. apply HR; auto.
    + intros [(y & Hy & H')|[]]. exists y. split; auto. apply HR; auto.
Qed.
End RgbBgra.

(** *** BGR to RGB and BGRA to RGB *)
Section ToRgb.
Variables src dst : slice.
Variable n : nat.
Hypothesis Hs : src_ok src.
Hypothesis Hd : dst_ok dst n.

Notation B := (byte ms src).

(** The bytes of a destination row: pixel [x] comes from source offset [so + sd * x]. *)
Definition rgb_row (sd so j : Z) : Z :=
  pixel_byte Rgb (B (so + sd * (j / 3) + 2), B (so + sd * (j / 3) + 1), B (so + sd * (j / 3))) (j mod 3).

Lemma rgb_row_at sd so k r : 0 <= r < 3 ->
  rgb_row sd so (3 * k + r) = pixel_byte Rgb (B (so + sd * k + 2), B (so + sd * k + 1), B (so + sd * k)) r.
Proof. intros H. unfold rgb_row. rewrite div_mul_add, mod_mul_add by lia. reflexivity. Qed.

Lemma runs_swap_step1 sd i so do_ :
  (sd = 3 \/ sd = 4) -> 0 <= i -> 0 <= so -> 0 <= do_ ->
  so + sd * i + 3 <= cap ms dl src -> do_ + 3 * i + 3 <= cap ms dl dst ->
  so + sd * (i + 1) < usz T -> do_ + 3 * (i + 1) < usz T -> i + 1 < usz T ->
  runs (swap_copy_step1 sd 3 src dst (i, so + sd * i, do_ + 3 * i))
    (row n (s_off dst + do_ + 3 * i) 3 (fun j => rgb_row sd so (3 * i + j)))
    (i + 1, so + sd * (i + 1), do_ + 3 * (i + 1)).
Proof.
  intros Hsd Hi Hso Hdo Ls Ld Os Od Ox. unfold swap_copy_step1.
  destruct Hs as (Hs1 & Hs2 & _). destruct Hd as (Hd1 & Hd2 & _).
  assert (0 <= sd * i) by nia.
  eapply runs_iff.
  - eapply runs_bind0; [apply exec_uadd; lia|].
    eapply runs_bind0; [apply exec_ld; auto; lia|].
    eapply runs_bind; [eapply runs_st; eauto; lia|].
    eapply runs_bind0; [apply exec_uadd; lia|].
    eapply runs_bind0; [apply exec_ld; auto; lia|].
    eapply runs_bind0; [apply exec_uadd; lia|].
    eapply runs_bind; [eapply runs_st; eauto; lia|].
    eapply runs_bind0; [apply exec_ld; auto; lia|].
    eapply runs_bind0; [apply exec_uadd; lia|].
    eapply runs_bind1; [eapply runs_st; eauto; lia|].
    eapply exec_bind0; [apply exec_uadd; lia|].
    eapply exec_bind0; [apply exec_uadd; lia|].
    eapply exec_bind0; [apply exec_uadd; lia|].
    eapply exec_eq; [apply exec_ret|reflexivity|].
    apply f_equal2; [apply f_equal2|]; lia.
  - intros wr. unfold wunion. rewrite row_iff. split.
    + intros [->|[->| ->]]; [exists 0|exists 1|exists 2]; (split; [lia|]);
        rewrite rgb_row_at by lia; cbn [pixel_byte component_offsets Z.eqb Pos.eqb];
        (apply write_eq; [lia|first [reflexivity | f_equal; lia]]).
    + intros (j & Hj & ->). rewrite rgb_row_at by lia.
      assert (j = 0 \/ j = 1 \/ j = 2) as [->|[->| ->]] by lia;
        cbn [pixel_byte component_offsets Z.eqb Pos.eqb];
        [left|right;left|right;right]; (apply write_eq; [lia|first [reflexivity | f_equal; lia]]).
Qed.

Ltac st64 HBy := eapply runs_st_u64; [exact Hd|solve_bytes; apply HBy|reflexivity|lia|lia].

Lemma runs_bgr_step8 i so do_ :
  0 <= i -> 0 <= so -> 0 <= do_ ->
  so + 24 * i + 24 <= cap ms dl src -> do_ + 24 * i + 24 <= cap ms dl dst ->
  so + 24 * (i + 1) < usz T -> do_ + 24 * (i + 1) < usz T -> 8 * (i + 1) < usz T ->
  runs (bgr_to_rgb_step8 src dst (8 * i, so + 24 * i, do_ + 24 * i))
    (row n (s_off dst + do_ + 24 * i) 24 (fun j => rgb_row 3 so (24 * i + j)))
    (8 * (i + 1), so + 24 * (i + 1), do_ + 24 * (i + 1)).
Proof.
  intros Hi Hso Hdo Ls Ld Os Od Ox. unfold bgr_to_rgb_step8.
  assert (HBy : forall i, is_byte (B i)) by (intros; apply byte_range; auto).
  set (s0 := so + 24 * i) in *. set (d0 := do_ + 24 * i) in *.
  assert (0 <= s0) by lia. assert (0 <= d0) by lia.
  eapply runs_iff.
  - eapply runs_bind0; [apply exec_ld_u64; auto; lia|].
    eapply runs_bind0; [apply exec_ld_u64; auto; lia|].
    eapply runs_bind0; [apply exec_ld_u64; auto; lia|].
    cbn [zseq map].
    rewrite bgr_to_rgb_words_bytes by (solve_bytes; apply HBy).
    eapply runs_bind; [st64 HBy|].
    eapply runs_bind; [st64 HBy|].
    eapply runs_bind1; [st64 HBy|].
    eapply exec_bind0; [apply exec_uadd; lia|].
    eapply exec_bind0; [apply exec_uadd; lia|].
    eapply exec_bind0; [apply exec_uadd; lia|].
    eapply exec_eq; [apply exec_ret|reflexivity|].
    unfold s0, d0. apply f_equal2; [apply f_equal2|]; lia.
  - intros wr. unfold wunion.
    replace (s_off dst + (d0 + 8)) with (s_off dst + d0 + 8) by lia.
    replace (s_off dst + (d0 + 16)) with (s_off dst + d0 + 8 + 8) by lia.
    rewrite !bytes_row_cons2 by reflexivity. cbn [app].
    unfold bytes_row. apply row_ext; [unfold d0; lia|reflexivity|].
    intros j Hj. change (zlen _) with 24 in Hj.
    unfold s0. clear - Hj.
    replace (24 * i + j) with (3 * (8 * i + j / 3) + j mod 3)
      by (pose proof (Z.div_mod j 3); lia).
    rewrite rgb_row_at by (apply Z.mod_pos_bound; lia).
    cases_j j Hj; fold_lits; try reflexivity; f_equal; lia.
Qed.

Lemma bgra_words a0 a1 a2 a3 a4 a5 b0 b1 b2 b3 b4 b5 c0 c1 c2 c3 c4 c5 d0 d1 d2 d3 d4 d5 :
  bytes [a0; a1; a2; a3; a4; a5] -> bytes [b0; b1; b2; b3; b4; b5] ->
  bytes [c0; c1; c2; c3; c4; c5] -> bytes [d0; d1; d2; d3; d4; d5] ->
  Z.lor (u64 (Z.shiftl (of_bytes [b0; b1; b2; b3; b4; b5; 0; 0]) 48)) (of_bytes [a0; a1; a2; a3; a4; a5; 0; 0])
  = of_bytes [a0; a1; a2; a3; a4; a5; b0; b1] /\
  Z.lor (Z.shiftr (of_bytes [b0; b1; b2; b3; b4; b5; 0; 0]) 16) (u64 (Z.shiftl (of_bytes [c0; c1; c2; c3; c4; c5; 0; 0]) 32))
  = of_bytes [b2; b3; b4; b5; c0; c1; c2; c3] /\
  Z.lor (Z.shiftr (of_bytes [c0; c1; c2; c3; c4; c5; 0; 0]) 32) (u64 (Z.shiftl (of_bytes [d0; d1; d2; d3; d4; d5; 0; 0]) 16))
  = of_bytes [c4; c5; d0; d1; d2; d3; d4; d5].
Proof.
  intros Ha Hb Hc Hd'. open_bytes. unfold u64. change (2 ^ 64) with (256 ^ Z.of_nat 8).
  change 48 with (8 * Z.of_nat 6). change 16 with (8 * Z.of_nat 2). change 32 with (8 * Z.of_nat 4).
  repeat split; repeat word_step; reflexivity.
Qed.

Lemma runs_bgra_step8 i so do_ :
  0 <= i -> 0 <= so -> 0 <= do_ ->
  so + 32 * i + 32 <= cap ms dl src -> do_ + 24 * i + 24 <= cap ms dl dst ->
  so + 32 * (i + 1) < usz T -> do_ + 24 * (i + 1) < usz T -> 8 * (i + 1) < usz T ->
  runs (bgra_to_rgb_step8 src dst (8 * i, so + 32 * i, do_ + 24 * i))
    (row n (s_off dst + do_ + 24 * i) 24 (fun j => rgb_row 4 so (24 * i + j)))
    (8 * (i + 1), so + 32 * (i + 1), do_ + 24 * (i + 1)).
Proof.
  intros Hi Hso Hdo Ls Ld Os Od Ox. unfold bgra_to_rgb_step8. cbv zeta.
  assert (HBy : forall i, is_byte (B i)) by (intros; apply byte_range; auto).
  set (s0 := so + 32 * i) in *. set (d0 := do_ + 24 * i) in *.
  assert (0 <= s0) by lia. assert (0 <= d0) by lia.
  eapply runs_iff.
  - eapply runs_bind0; [apply exec_ld_u64; auto; lia|].
    eapply runs_bind0; [apply exec_ld_u64; auto; lia|].
    eapply runs_bind0; [apply exec_ld_u64; auto; lia|].
    eapply runs_bind0; [apply exec_ld_u64; auto; lia|].
    cbn [zseq map].
    rewrite !bgra_to_rgb_word_bytes by (solve_bytes; apply HBy).
    rewrite (proj1 (bgra_words _ _ _ _ _ _ _ _ _ _ _ _ 0 0 0 0 0 0 0 0 0 0 0 0
      ltac:(solve_bytes; apply HBy) ltac:(solve_bytes; apply HBy) ltac:(solve_bytes) ltac:(solve_bytes))).
    rewrite (proj1 (proj2 (bgra_words 0 0 0 0 0 0 _ _ _ _ _ _ _ _ _ _ _ _ 0 0 0 0 0 0
      ltac:(solve_bytes) ltac:(solve_bytes; apply HBy) ltac:(solve_bytes; apply HBy) ltac:(solve_bytes)))).
    rewrite (proj2 (proj2 (bgra_words 0 0 0 0 0 0 0 0 0 0 0 0 _ _ _ _ _ _ _ _ _ _ _ _
      ltac:(solve_bytes) ltac:(solve_bytes) ltac:(solve_bytes; apply HBy) ltac:(solve_bytes; apply HBy)))).
    eapply runs_bind; [st64 HBy|].
    eapply runs_bind; [st64 HBy|].
    eapply runs_bind1; [st64 HBy|].
    eapply exec_bind0; [apply exec_uadd; lia|].
    eapply exec_bind0; [apply exec_uadd; lia|].
    eapply exec_bind0; [apply exec_uadd; lia|].
    eapply exec_eq; [apply exec_ret|reflexivity|].
    unfold s0, d0. apply f_equal2; [apply f_equal2|]; lia.
  - intros wr. unfold wunion.
    replace (s_off dst + (d0 + 8)) with (s_off dst + d0 + 8) by lia.
    replace (s_off dst + (d0 + 16)) with (s_off dst + d0 + 8 + 8) by lia.
    rewrite !bytes_row_cons2 by reflexivity. cbn [app].
    unfold bytes_row. apply row_ext; [unfold d0; lia|reflexivity|].
    intros j Hj. change (zlen _) with 24 in Hj.
    unfold s0. clear - Hj.
    replace (24 * i + j) with (3 * (8 * i + j / 3) + j mod 3)
      by (pose proof (Z.div_mod j 3); lia).
    rewrite rgb_row_at by (apply Z.mod_pos_bound; lia).
    cases_j j Hj; fold_lits; try reflexivity; f_equal; lia.
Qed.

Lemma lower8 w : 0 <= w -> exists m, lower_multiple_of_pot w 8 = 8 * m /\ 0 <= m /\ 8 * m <= w < 8 * m + 8.
Proof.
  intros H. exists (w / 8). unfold lower_multiple_of_pot.
  change (8 - 1) with (Z.ones 3). rewrite Z.land_ones by lia. change (2 ^ 3) with 8.
  pose proof (Z.div_mod w 8 ltac:(lia)). pose proof (Z.mod_pos_bound w 8 ltac:(lia)). lia.
Qed.

(** Groups of eight pixels are read whole, the others but for their fourth byte. *)
Definition tail (sd w : Z) : Z := if (sd =? 4) && negb (w mod 8 =? 0) then -1 else 0.

(** One line, common to the two kernels: [step] is the 8-pixel step. *)
Lemma runs_to_rgb_line sd step width so do_ :
  (sd = 3 \/ sd = 4) -> 0 <= width -> width < usz T ->
  (forall i, 0 <= i -> so + 8 * sd * i + 8 * sd <= cap ms dl src -> do_ + 24 * i + 24 <= cap ms dl dst ->
     so + 8 * sd * (i + 1) < usz T -> do_ + 24 * (i + 1) < usz T -> 8 * (i + 1) < usz T ->
     runs (step (8 * i, so + 8 * sd * i, do_ + 24 * i))
       (row n (s_off dst + do_ + 24 * i) 24 (fun j => rgb_row sd so (24 * i + j)))
       (8 * (i + 1), so + 8 * sd * (i + 1), do_ + 24 * (i + 1))) ->
  0 <= so -> 0 <= do_ -> so + sd * width + tail sd width <= cap ms dl src -> so + sd * width < usz T ->
  do_ + 3 * width <= cap ms dl dst ->
  runs (s1 <- loop (Z.to_nat ((lower_multiple_of_pot width 8 + 7) / 8)) (0, so, do_) step ;;
        loop (Z.to_nat (width - fst (fst s1))) s1 (swap_copy_step1 sd 3 src dst) ;; ret tt)
    (row n (s_off dst + do_) (3 * width) (rgb_row sd so)) tt.
Proof.
  intros Hsd Hw Hu Hstep Hso Hdo Ls Lu Ld.
  assert (Us : cap ms dl src < usz T) by apply Hs. assert (Ud : cap ms dl dst < usz T) by apply Hd.
  destruct (lower8 width Hw) as (m & -> & Hm0 & Hm1).
  assert (L3 : forall i, i < width -> so + sd * i + 3 <= cap ms dl src).
  { intros i Hi. unfold tail in Ls. destruct Hsd as [->| ->]; [cbn [Z.eqb Pos.eqb andb] in Ls|destruct (_ && _) in Ls]; lia. }
  assert (L8' : forall i, i < m -> so + 8 * sd * i + 8 * sd <= cap ms dl src).
  { intros i Hi. unfold tail in Ls. destruct Hsd as [->| ->]; [cbn [Z.eqb Pos.eqb andb] in Ls; lia|].
    change (4 =? 4) with true in Ls. cbn [andb] in Ls. destruct (Z.eqb_spec (width mod 8) 0) as [E|E]; cbn [negb] in Ls; [lia|].
    assert (8 * m <> width) by (intros E'; apply E; rewrite <- E', Z.mul_comm; apply Z.mod_mul; lia). lia. }
  rewrite (div_mul_add 8 m 7) by lia.
  pose proof (runs_loop0 T ms dl m (fun i => (8 * i, so + 8 * sd * i, do_ + 24 * i)) step
    (fun i => row n (s_off dst + do_ + 24 * i) 24 (fun j => rgb_row sd so (24 * i + j)))) as L8.
  cbv beta in L8. rewrite !Z.mul_0_r, !Z.add_0_r in L8.
  assert (Hb2 : forall wr, (exists i, 0 <= i < m /\ row n (s_off dst + do_ + 24 * i) 24 (fun j => rgb_row sd so (24 * i + j)) wr)
     <-> row n (s_off dst + do_) (24 * m) (rgb_row sd so) wr).
  { intros wr. rewrite <- (row_chunks n (s_off dst + do_) 24 (rgb_row sd so) 0 m wr) by lia.
    apply row_ext; try lia. intros; f_equal; lia. }
  pose proof (runs_loop T ms dl (Z.to_nat (width - 8 * m)) (fun i => (i, so + sd * i, do_ + 3 * i))
    (swap_copy_step1 sd 3 src dst)
    (fun i => row n (s_off dst + do_ + 3 * i) 3 (fun j => rgb_row sd so (3 * i + j))) (8 * m)) as L1.
  cbv beta in L1.
  replace (8 * m + Z.of_nat (Z.to_nat (width - 8 * m))) with (8 * m + (width - 8 * m)) in L1 by lia.
  assert (Hb1 : forall wr, (exists i, 8 * m <= i < 8 * m + (width - 8 * m) /\
        row n (s_off dst + do_ + 3 * i) 3 (fun j => rgb_row sd so (3 * i + j)) wr)
     <-> row n (s_off dst + do_ + 3 * (8 * m)) (3 * (width - 8 * m)) (fun j => rgb_row sd so (3 * (8 * m) + j)) wr).
  { intros wr. rewrite <- (row_chunks n (s_off dst + do_) 3 (rgb_row sd so) (8 * m)) by lia. reflexivity. }
  eapply runs_iff.
  - eapply runs_bind.
    { apply L8; auto. intros i Hi. specialize (L8' i). apply Hstep; destruct Hsd as [->| ->]; lia. }
    cbn [fst].
    eapply runs_bind1; [|apply exec_ret].
    replace (so + 8 * sd * m) with (so + sd * (8 * m)) by lia.
    replace (do_ + 24 * m) with (do_ + 3 * (8 * m)) by lia.
    apply L1. intros i Hi. specialize (L3 i). apply runs_swap_step1; destruct Hsd as [->| ->]; lia.
  - intros wr. unfold wunion. rewrite Hb2, Hb1.
    replace (3 * width) with (24 * m + 3 * (width - 8 * m)) by lia.
    rewrite row_app by lia.
    apply or_iff; [reflexivity|]. apply row_ext; try lia; intros; f_equal; lia.
Qed.

Lemma rgb_row_pcol pf sd ss y wr ds width :
  component_offsets pf = (2, 1, 0) -> bytes_per_pixel pf = sd ->
  row n (s_off dst + ds * y) (3 * width) (rgb_row sd (ss * y)) wr <->
  row n (s_off dst + ds * y) (bytes_per_pixel Rgb * width)
    (fun j => pixel_byte Rgb (pcol pf src ss (j / bytes_per_pixel Rgb) y) (j mod bytes_per_pixel Rgb)) wr.
Proof.
  intros E1 E2. apply row_ext; auto. intros j _. unfold rgb_row, pcol. rewrite E1, E2.
  cbn [bytes_per_pixel]. rewrite Z.add_0_r. reflexivity.
Qed.

Lemma runs_bgr_to_rgb width height ss ds :
  0 <= width -> width < usz T ->
  fits src ss height (3 * width) -> fits dst ds height (3 * width) ->
  runs (bgr_to_rgb width height ss src ds dst)
    (in_areas [out_area Rgb (pcol Bgr src ss) n dst ds height width]) tt.
Proof.
  intros Hw Hu Fs Fd. unfold bgr_to_rgb. cbv zeta.
  assert (Us : cap ms dl src < usz T) by apply Hs. assert (Ud : cap ms dl dst < usz T) by apply Hd.
  eapply runs_iff.
  - apply runs_for with (P := fun y => row n (s_off dst + ds * y) (3 * width) (rgb_row 3 (ss * y))).
    intros y Hy.
    assert (0 <= ss * y /\ ss * y + 3 * width <= cap ms dl src) by (destruct Fs; nia).
    assert (0 <= ds * y /\ ds * y + 3 * width <= cap ms dl dst) by (destruct Fd; nia).
    eapply runs_bind0; [apply exec_umul; lia|].
    eapply runs_bind0; [apply exec_umul; lia|].
    apply (runs_to_rgb_line 3 (bgr_to_rgb_step8 src dst)); auto; try (change (tail 3 width) with 0; lia).
    intros i Hi. change (8 * 3) with 24. intros. apply runs_bgr_step8; lia.
  - intros wr. cbn [in_areas]. unfold wunion, wempty. rewrite out_rows.
    split.
    + intros (y & Hy & H'). left. exists y. split; auto. apply (rgb_row_pcol Bgr 3 ss y); auto.
    + intros [(y & Hy & H')|[]]. exists y. split; auto. apply (rgb_row_pcol Bgr 3 ss y) in H'; auto.
Qed.

Lemma runs_bgra_to_rgb width height ss ds :
  0 <= width -> 0 < height -> width < usz T -> 4 * width <= ss -> ss * height < usz T -> 3 * width <= ds < usz T ->
  fits src ss height (4 * width + tail 4 width) -> fits dst ds height (3 * width) ->
  runs (bgra_to_rgb width height ss src ds dst)
    (in_areas [out_area Rgb (pcol Bgra src ss) n dst ds height width]) tt.
Proof.
  intros Hw Hh Hu Hss Hsh Hds Fs Fd. unfold bgra_to_rgb. cbv zeta.
  assert (0 <= ss * (height - 1)) by (apply Z.mul_nonneg_nonneg; [apply Fs|lia]).
  assert (Us : cap ms dl src < usz T) by apply Hs. assert (Ud : cap ms dl dst < usz T) by apply Hd.
  eapply runs_bind0; [apply exec_umul; lia|].
  eapply runs_bind0; [apply exec_usub; lia|].
  eapply runs_bind0; [apply exec_umul; lia|].
  eapply runs_bind0; [apply exec_usub; lia|].
  eapply runs_iff.
  - apply runs_for with (P := fun y => row n (s_off dst + ds * y) (3 * width) (rgb_row 4 (ss * y))).
    intros y Hy.
    assert (0 <= ss * y <= ss * (height - 1)) by (destruct Fs; nia).
    assert (ss * y + 4 * width + tail 4 width <= cap ms dl src) by (destruct Fs; lia).
    assert (0 <= ds * y /\ ds * y + 3 * width <= cap ms dl dst) by (destruct Fd; nia).
    eapply runs_bind0; [apply exec_umul; lia|].
    eapply runs_bind0; [apply exec_uadd; lia|].
    replace (4 * width + (ss - 4 * width)) with ss by lia.
    eapply runs_bind0; [apply exec_umul; lia|].
    eapply runs_bind0; [apply exec_umul; lia|].
    eapply runs_bind0; [apply exec_uadd; lia|].
    replace (3 * width + (ds - 3 * width)) with ds by lia.
    eapply runs_bind0; [apply exec_umul; lia|].
    apply (runs_to_rgb_line 4 (bgra_to_rgb_step8 src dst)); auto; try lia.
    intros i Hi. change (8 * 4) with 32. intros. apply runs_bgra_step8; lia.
  - intros wr. cbn [in_areas]. unfold wunion, wempty. rewrite out_rows.
    split.
    + intros (y & Hy & H'). left. exists y. split; auto. apply (rgb_row_pcol Bgra 4 ss y); auto.
    + intros [(y & Hy & H')|[]]. exists y. split; auto. apply (rgb_row_pcol Bgra 4 ss y) in H'; auto.
Qed.

End ToRgb.
End Reorder.
