(** The re-orderings on a big-endian machine: the proofs of [ReorderProofs] with words in the other order. *)
From Coq Require Import ZArith List Bool Lia ZifyBool ZifyNat.
Import ListNotations.
From Verif Require Import Base Exec Area Fmt Common Scalar Spec PixelFacts KernelBase
  ForwardProofs BackwardProofs Bytes ReorderProofs BigOrderSpec.
Open Scope Z_scope.

Lemma rows_area n b stride h c f wr :
  (exists y, 0 <= y < h /\ row n (b + stride * y) c (f y) wr) <-> in_area (Area n b stride h c f) wr.
Proof.
  rewrite area_rows. unfold row.
  split; intros (y & Hy & H); exists y; split; auto.
  - rewrite (area_row _ _ stride 0). revert H. apply area_ext'; auto; lia.
  - rewrite (area_row _ _ stride 0) in H. revert H. apply area_ext'; auto; lia.
Qed.

Ltac decide_lt := repeat match goal with
  | |- context [?a <? ?b] => first [replace (a <? b) with true by lia | replace (a <? b) with false by lia] end.

Section Reorder.
Variable T : target.
Variable ms : list (list Z).
Variable dl : list nat.
Hypothesis HB : bytes_ok ms.

Notation exec := (exec T ms dl).
Notation runs := (runs T ms dl).
Notation fits := (fits ms dl).
Definition src_big (s : slice) : Prop := view_ok ms dl s /\ is_src s /\ cap ms dl s < usz T /\ big T = true.
Definition dst_big (s : slice) (n : nat) : Prop := view_ok ms dl s /\ is_dst s n /\ cap ms dl s < usz T /\ big T = true.

Lemma exec_in_order l : big T = true -> exec (in_order l) [] (rev l).
Proof. intros L m _. (unfold in_order; cbn [run]). rewrite L. reflexivity. Qed.

Lemma exec_ld_u64 s i : src_big s -> 0 <= i -> i + 8 <= cap ms dl s ->
  exec (ld_u64 s i) [] (of_bytes (rev (map (byte ms s) (zseq i 8)))).
Proof.
  intros (H1 & H2 & _ & L) Hi Hl. unfold ld_u64, ld_word. eapply exec_bind0; [apply exec_ldn; auto; lia|].
  eapply exec_bind0; [apply exec_in_order; exact L|]. apply exec_ret.
Qed.
Lemma exec_ld_u32 s i : src_big s -> 0 <= i -> i + 4 <= cap ms dl s ->
  exec (ld_u32 s i) [] (of_bytes (rev (map (byte ms s) (zseq i 4)))).
Proof.
  intros (H1 & H2 & _ & L) Hi Hl. unfold ld_u32, ld_word. eapply exec_bind0; [apply exec_ldn; auto; lia|].
  eapply exec_bind0; [apply exec_in_order; exact L|]. apply exec_ret.
Qed.

Lemma runs_stn_row s n i l : dst_big s n -> 0 <= i -> i + zlen l <= cap ms dl s ->
  runs (stn s i l) (bytes_row n (s_off s + i) l) tt.
Proof. intros (H1 & H2 & _) Hi Hl. apply runs_stn; auto. Qed.

Lemma runs_st_u64 s n i l : dst_big s n -> bytes l -> length l = 8%nat -> 0 <= i -> i + 8 <= cap ms dl s ->
  runs (st_u64 s i (of_bytes l)) (bytes_row n (s_off s + i) (rev l)) tt.
Proof.
  intros Hs Hb E Hi Hl. unfold st_u64, st_word. rewrite <- E, to_of_bytes by auto.
  eapply runs_bind0; [apply exec_in_order; apply Hs|].
  apply runs_stn_row; auto. unfold zlen. rewrite rev_length. lia.
Qed.
Lemma runs_st_u32 s n i l : dst_big s n -> bytes l -> length l = 4%nat -> 0 <= i -> i + 4 <= cap ms dl s ->
  runs (st_u32 s i (of_bytes l)) (bytes_row n (s_off s + i) (rev l)) tt.
Proof.
  intros Hs Hb E Hi Hl. unfold st_u32, st_word. rewrite <- E, to_of_bytes by auto.
  eapply runs_bind0; [apply exec_in_order; apply Hs|].
  apply runs_stn_row; auto. unfold zlen. rewrite rev_length. lia.
Qed.

(** *** RGB to BGRA *)
Section RgbBgra.
Variables src dst : slice.
Variable n : nat.
Hypothesis Hs : src_big src.
Hypothesis Hd : dst_big dst n.

Notation B := (byte ms src).

(** The bytes of destination row [y]: pixel [x] comes from source offset [so + 3x]. *)
Definition big_row (E S so j : Z) : Z := big_bgra E S (fun o => B (so + o)) (j / 4) (j mod 4).
Lemma big_row_at E S so k r : 0 <= r < 4 -> big_row E S so (4 * k + r) = big_bgra E S (fun o => B (so + o)) k r.
Proof. intros H. unfold big_row. rewrite div_mul_add, mod_mul_add by lia. reflexivity. Qed.
Ltac byte_any := intros; apply byte_range; auto.
Ltac st64 HBy := eapply runs_st_u64; [exact Hd|solve_bytes; apply HBy|reflexivity|lia|lia].

Lemma runs_step8 E S i so do_ : 8 * i + 8 <= E ->
  0 <= i -> 0 <= so -> 0 <= do_ ->
  so + 24 * i + 26 <= cap ms dl src -> do_ + 32 * i + 32 <= cap ms dl dst ->
  so + 24 * (i + 1) < usz T -> do_ + 32 * (i + 1) < usz T -> 8 * (i + 1) < usz T ->
  runs (rgb_to_bgra_step8 src dst (8 * i, so + 24 * i, do_ + 32 * i))
    (row n (s_off dst + do_ + 32 * i) 32 (fun j => big_row E S so (32 * i + j)))
    (8 * (i + 1), so + 24 * (i + 1), do_ + 32 * (i + 1)).
Proof.
  intros HE Hi Hso Hdo Ls Ld Os Od Ox. unfold rgb_to_bgra_step8.
  set (s0 := so + 24 * i) in *. set (d0 := do_ + 32 * i) in *.
  assert (0 <= s0) by lia. assert (0 <= d0) by lia.
  eapply runs_iff.
  - eapply runs_bind0; [apply exec_ld_u64; auto; lia|].
    eapply runs_bind0; [apply exec_uadd; lia|].
    eapply runs_bind0; [apply exec_ld_u64; auto; lia|].
    eapply runs_bind0; [apply exec_uadd; lia|].
    eapply runs_bind0; [apply exec_ld_u64; auto; lia|].
    eapply runs_bind0; [apply exec_uadd; lia|].
    eapply runs_bind0; [apply exec_ld_u64; auto; lia|].
    cbn [zseq map rev app].
    rewrite !rgb_to_bgra_word64_bytes by (solve_bytes; apply byte_range; auto).
    assert (HBy : forall i, is_byte (B i)) by (intros; apply byte_range; auto).
    eapply runs_bind; [st64 HBy|].
    eapply runs_bind; [st64 HBy|].
    eapply runs_bind; [st64 HBy|].
    eapply runs_bind1; [st64 HBy|].
    eapply exec_bind0; [apply exec_uadd; lia|].
    eapply exec_bind0; [apply exec_uadd; lia|].
    eapply exec_bind0; [apply exec_uadd; lia|].
    eapply exec_eq; [apply exec_ret|reflexivity|].
    unfold s0, d0. apply f_equal2; [apply f_equal2|]; lia.
  - intros wr. unfold wunion.
    replace (s_off dst + (d0 + 8)) with (s_off dst + d0 + 8) by lia.
    replace (s_off dst + (d0 + 16)) with (s_off dst + d0 + 8 + 8) by lia.
    replace (s_off dst + (d0 + 24)) with (s_off dst + d0 + 8 + 8 + 8) by lia.
    rewrite !bytes_row_cons2 by reflexivity. cbn [app rev].
    unfold bytes_row. apply row_ext; [unfold d0; lia|reflexivity|].
    intros j Hj. change (zlen _) with 32 in Hj.
    unfold s0. clear - Hj HE.
    replace (32 * i + j) with (4 * (8 * i + j / 4) + j mod 4)
      by (pose proof (Z.div_mod j 4); lia).
    rewrite big_row_at by (apply Z.mod_pos_bound; lia).
    cases_j j Hj; fold_lits; unfold big_bgra; decide_lt; cbn [Z.eqb Pos.eqb]; try reflexivity; f_equal; lia.
Qed.


Lemma runs_step1 E S i so do_ : E <= i < S ->
  0 <= i -> 0 <= so -> 0 <= do_ ->
  so + 3 * i + 4 <= cap ms dl src -> do_ + 4 * i + 4 <= cap ms dl dst ->
  so + 3 * (i + 1) < usz T -> do_ + 4 * (i + 1) < usz T -> i + 1 < usz T ->
  runs (rgb_to_bgra_step1 src dst (i, so + 3 * i, do_ + 4 * i))
    (row n (s_off dst + do_ + 4 * i) 4 (fun j => big_row E S so (4 * i + j)))
    (i + 1, so + 3 * (i + 1), do_ + 4 * (i + 1)).
Proof.
  intros HE Hi Hso Hdo Ls Ld Os Od Ox. unfold rgb_to_bgra_step1.
  assert (HBy : forall i, is_byte (B i)) by (intros; apply byte_range; auto).
  eapply runs_iff.
  - eapply runs_bind0; [apply exec_ld_u32; auto; lia|].
    cbn [zseq map rev app].
    rewrite rgb_to_bgra_word32_bytes by (solve_bytes; apply HBy).
    eapply runs_bind1; [eapply runs_st_u32; [exact Hd|solve_bytes; apply HBy|reflexivity|lia|lia]|].
    eapply exec_bind0; [apply exec_uadd; lia|].
    eapply exec_bind0; [apply exec_uadd; lia|].
    eapply exec_bind0; [apply exec_uadd; lia|].
    eapply exec_eq; [apply exec_ret|reflexivity|].
    apply f_equal2; [apply f_equal2|]; lia.
  - intros wr. unfold bytes_row. cbn [rev app]. apply row_ext; [lia|reflexivity|].
    intros j Hj. change (zlen _) with 4 in Hj. rewrite big_row_at by lia.
    cases_j j Hj; fold_lits; unfold big_bgra; decide_lt; cbn [Z.eqb Pos.eqb]; try reflexivity; f_equal; lia.
Qed.

(** The last pixel of a line, copied byte by byte. *)
Lemma runs_last E S width i so do_ : E <= i -> S <= i ->
  0 <= i <= width -> width <= i + 1 -> 0 <= so -> 0 <= do_ ->
  so + 3 * width <= cap ms dl src -> do_ + 4 * width <= cap ms dl dst ->
  so + 3 * width < usz T -> do_ + 4 * width < usz T ->
  runs (rgb_to_bgra_last src dst width (i, so + 3 * i, do_ + 4 * i))
    (row n (s_off dst + do_ + 4 * i) (4 * (width - i)) (fun j => big_row E S so (4 * i + j)))
    (so + 3 * width, do_ + 4 * width).
Proof.
  intros HE HS Hi Hw Hso Hdo Ls Ld Os Od. unfold rgb_to_bgra_last.
  destruct (Z.ltb_spec i width) as [Hlt|Hge].
  - replace width with (i + 1) in * by lia.
    destruct Hs as (Hs1 & Hs2 & _). destruct Hd as (Hd1 & Hd2 & _).
    eapply runs_iff.
    + eapply runs_bind0; [apply exec_uadd; lia|].
      eapply runs_bind0; [apply exec_ld; auto; lia|].
      eapply runs_bind; [eapply runs_st; eauto; lia|].
      eapply runs_bind0; [apply exec_uadd; lia|].
      eapply runs_bind0; [apply exec_ld; auto; lia|].
      eapply runs_bind0; [apply exec_uadd; lia|].
      eapply runs_bind; [eapply runs_st; eauto; lia|].
      eapply runs_bind0; [apply exec_ld; auto; lia|].
      eapply runs_bind0; [apply exec_uadd; lia|].
      eapply runs_bind; [eapply runs_st; eauto; lia|].
      eapply runs_bind0; [apply exec_uadd; lia|].
      eapply runs_bind1; [eapply runs_st; eauto; lia|].
      eapply exec_bind0; [apply exec_uadd; lia|].
      eapply exec_bind0; [apply exec_uadd; lia|].
      eapply exec_eq; [apply exec_ret|reflexivity|]. apply f_equal2; lia.
    + intros wr. unfold wunion. rewrite row_iff. split.
      * intros [->|[->|[->| ->]]]; [exists 0|exists 1|exists 2|exists 3];
          (split; [lia|]); rewrite big_row_at by lia;
          unfold big_bgra; decide_lt; cbn [Z.eqb Pos.eqb]; (apply write_eq; [lia|first [reflexivity | f_equal; lia]]).
      * intros (j & Hj & ->). rewrite big_row_at by lia.
        assert (j = 0 \/ j = 1 \/ j = 2 \/ j = 3) as [->|[->|[->| ->]]] by lia;
          unfold big_bgra; decide_lt; cbn [Z.eqb Pos.eqb];
          [left|right;left|right;right;left|right;right;right];
          (apply write_eq; [lia|first [reflexivity | f_equal; lia]]).
  - replace i with width in * by lia.
    eapply runs_iff; [apply runs_ret|].
    intros wr. unfold wempty. rewrite row_iff. split; [tauto|]. intros (j & Hj & _). lia.
Qed.

Lemma runs_line width height y ss ds :
  0 < width -> 0 <= y < height -> height < usz T -> 8 * width < usz T ->
  3 * width <= ss -> 4 * width <= ds ->
  fits src ss height (3 * width) -> fits dst ds height (4 * width) ->
  ss * height < usz T -> ds * height < usz T ->
  runs (rgb_to_bgra_line width height (ss - 3 * width) (ds - 4 * width) src dst (y, ss * y, ds * y))
    (row n (s_off dst + ds * y) (4 * width) (big_row (big_eight width (ss - 3 * width) (y =? height - 1)) (big_single width (ss - 3 * width) (y =? height - 1)) (ss * y)))
    (y + 1, ss * (y + 1), ds * (y + 1)).
Proof.
  intros Hw Hy Hh Hw8 Hss Hds Fs Fd Os Od. unfold rgb_to_bgra_line.
  assert (Hso : 0 <= ss * y) by nia. assert (Hdo : 0 <= ds * y) by nia.
  assert (Ls : ss * y + 3 * width <= cap ms dl src) by (destruct Fs; nia).
  assert (Ld : ds * y + 4 * width <= cap ms dl dst) by (destruct Fd; nia).
  assert (Us : ss * (y + 1) <= ss * height) by nia.
  assert (Ud : ds * (y + 1) <= ds * height) by nia.
  assert (Es : ss * (y + 1) = ss * y + ss) by ring.
  assert (Ed : ds * (y + 1) = ds * y + ds) by ring.
  assert (Ls' : y <> height - 1 -> ss * y + ss + 3 * width <= cap ms dl src) by (intros; destruct Fs; nia).
  set (so := ss * y) in *. set (do_ := ds * y) in *. clearbody so do_.
  eapply runs_bind0; [apply exec_usub; lia|]. cbv zeta.
  set (single := if (y =? height - 1) || (ss - 3 * width <? 1) then width - 1 else width).
  set (m := if (y =? height - 1) || ((8 * (width / 8) =? width) && (ss - 3 * width <? 2))
            then (width - 1) / 8 else width / 8).
  assert (EE : big_eight width (ss - 3 * width) (y =? height - 1) = 8 * m).
  { clear single. unfold m, big_eight. pose proof (Z.div_mod width 8 ltac:(lia)). pose proof (Z.mod_pos_bound width 8 ltac:(lia)).
      replace (8 * (width / 8) =? width) with (width mod 8 =? 0) by lia.
      match goal with |- (if ?c then _ else _) = _ => destruct c end; reflexivity. }
  rewrite EE. clear EE. change (big_single width (ss - 3 * width) (y =? height - 1)) with single.
  eapply runs_bind0 with (v1 := single).
  { unfold single. destruct ((y =? height - 1) || (ss - 3 * width <? 1)).
    - apply exec_usub; lia. - apply exec_ret. }
  eapply runs_bind0 with (v1 := 8 * m).
  { unfold m. destruct ((y =? height - 1) || ((8 * (width / 8) =? width) && (ss - 3 * width <? 2))).
    - eapply exec_bind0; [apply exec_usub; lia|]. apply exec_ret.
    - apply exec_ret. }
  assert (Hm : 0 <= m /\ 8 * m <= width /\ width < 8 * m + 9 /\ (8 * m <= single) /\ single <= width <= single + 1 /\
    (forall i, 0 <= i < m -> so + 24 * i + 26 <= cap ms dl src) /\
    (forall i, 0 <= i < single -> so + 3 * i + 4 <= cap ms dl src)).
  { pose proof (Z.div_mod width 8 ltac:(lia)). pose proof (Z.mod_pos_bound width 8 ltac:(lia)).
    pose proof (Z.div_mod (width - 1) 8 ltac:(lia)). pose proof (Z.mod_pos_bound (width - 1) 8 ltac:(lia)).
    subst m single.
    destruct (Z.eqb_spec y (height - 1)), (Z.eqb_spec (8 * (width / 8)) width),
      (Z.ltb_spec (ss - 3 * width) 2), (Z.ltb_spec (ss - 3 * width) 1); cbn [orb andb];
      try (specialize (Ls' ltac:(assumption)));
      repeat split; intros; lia. }
  destruct Hm as (Hm0 & Hm1 & Hm2 & Hm3 & Hm4 & Hm5 & Hm6). clearbody m single.
  replace ((8 * m + 7) / 8) with m.
  2:{ symmetry. apply (div_mul_add 8 m 7). lia. }
  pose proof (runs_loop0 T ms dl m (fun i => (8 * i, so + 24 * i, do_ + 32 * i)) (rgb_to_bgra_step8 src dst)
    (fun i => row n (s_off dst + do_ + 32 * i) 32 (fun j => big_row (8 * m) single so (32 * i + j)))) as L8.
  cbv beta in L8. rewrite !Z.mul_0_r, !Z.add_0_r in L8.
  assert (Hb2 : forall wr, (exists i, 0 <= i < m /\ row n (s_off dst + do_ + 32 * i) 32 (fun j => big_row (8 * m) single so (32 * i + j)) wr)
     <-> row n (s_off dst + do_) (32 * m) (big_row (8 * m) single so) wr).
  { intros wr. rewrite <- (row_chunks n (s_off dst + do_) 32 (big_row (8 * m) single so) 0 m wr) by lia.
    apply row_ext; try lia. intros; f_equal; lia. }
  pose proof (runs_loop T ms dl (Z.to_nat (single - 8 * m)) (fun i => (i, so + 3 * i, do_ + 4 * i))
    (rgb_to_bgra_step1 src dst)
    (fun i => row n (s_off dst + do_ + 4 * i) 4 (fun j => big_row (8 * m) single so (4 * i + j))) (8 * m)) as L1.
  cbv beta in L1.
  replace (8 * m + Z.of_nat (Z.to_nat (single - 8 * m))) with (8 * m + (single - 8 * m)) in L1 by lia.
  assert (Hb1 : forall wr, (exists i, 8 * m <= i < 8 * m + (single - 8 * m) /\
        row n (s_off dst + do_ + 4 * i) 4 (fun j => big_row (8 * m) single so (4 * i + j)) wr)
     <-> row n (s_off dst + do_ + 4 * (8 * m)) (4 * (single - 8 * m)) (fun j => big_row (8 * m) single so (4 * (8 * m) + j)) wr).
  { intros wr. rewrite <- (row_chunks n (s_off dst + do_) 4 (big_row (8 * m) single so) (8 * m)) by lia. reflexivity. }
  replace (8 * m + (single - 8 * m)) with single in L1, Hb1 by lia.
  eapply runs_iff.
  - eapply runs_bind.
    { apply L8; auto. intros i Hi. apply runs_step8; try lia; apply Hm5; lia. }
    cbn [fst].
    eapply runs_bind.
    { replace (so + 24 * m) with (so + 3 * (8 * m)) by lia.
      replace (do_ + 32 * m) with (do_ + 4 * (8 * m)) by lia.
      apply L1. intros i Hi. apply runs_step1; try lia; apply Hm6; lia. }
    eapply runs_bind1; [apply runs_last with (width := width) (E := 8 * m) (S := single); lia|].
    cbv beta iota.
    eapply exec_bind0; [apply exec_uadd; lia|].
    eapply exec_bind0; [apply exec_uadd; lia|].
    eapply exec_eq; [apply exec_ret|reflexivity|].
    apply f_equal2; [apply f_equal2|]; lia.
  - intros wr. unfold wunion. rewrite Hb2, Hb1.
    replace (4 * width) with (32 * m + (4 * (single - 8 * m) + 4 * (width - single))) by lia.
    rewrite row_app by lia. rewrite row_app by lia.
    apply or_iff; [reflexivity|]. apply or_iff; apply row_ext; try lia; intros; f_equal; lia.
Qed.

Lemma runs_rgb_to_bgra width height ss ds :
  0 < width -> 0 < height -> height < usz T -> 8 * width < usz T ->
  3 * width <= ss -> 4 * width <= ds ->
  fits src ss height (3 * width) -> fits dst ds height (4 * width) ->
  ss * height < usz T -> ds * height < usz T ->
  runs (rgb_to_bgra width height ss src ds dst)
    (in_area (Area n (s_off dst) ds height (4 * width)
      (fun y j => big_byte Rgb Bgra width (ss - 3 * width) (y =? height - 1) (fun o => B (ss * y + o)) j))) tt.
Proof.
  intros Hw Hh Hh' Hw8 Hss Hds Fs Fd Os Od. unfold rgb_to_bgra.
  assert (ss <= ss * height) by nia. assert (ds <= ds * height) by nia.
  eapply runs_bind0; [apply exec_umul; lia|].
  eapply runs_bind0; [apply exec_usub; lia|].
  eapply runs_bind0; [apply exec_umul; lia|].
  eapply runs_bind0; [apply exec_usub; lia|].
  pose proof (runs_loop0 T ms dl height (fun y => (y, ss * y, ds * y))
    (rgb_to_bgra_line width height (ss - 3 * width) (ds - 4 * width) src dst)
    (fun y => row n (s_off dst + ds * y) (4 * width)
      (big_row (big_eight width (ss - 3 * width) (y =? height - 1)) (big_single width (ss - 3 * width) (y =? height - 1)) (ss * y)))) as L.
  cbv beta in L. rewrite !Z.mul_0_r in L.
  eapply runs_iff.
  - eapply runs_bind1; [|apply exec_ret]. apply L; [|lia].
    intros y Hy. apply runs_line; auto.
  - intros wr. rewrite <- rows_area. reflexivity.
Qed.
End RgbBgra.

(** *** BGR to RGB and BGRA to RGB *)
Section ToRgb.
Variables src dst : slice.
Variable n : nat.
Hypothesis Hs : src_big src.
Hypothesis Hd : dst_big dst n.

Notation B := (byte ms src).

(** The bytes of a destination row. *)
Definition torgb (tab : list Z) (sd w so j : Z) : Z := big_rgb tab sd w (fun o => B (so + o)) j.
Lemma torgb_words tab sd w so i j : 0 <= j < 24 -> 24 * i + 24 <= 24 * (w / 8) ->
  torgb tab sd w so (24 * i + j) = B (so + (8 * sd * i + nth (Z.to_nat j) tab 0)).
Proof.
  intros H L. unfold torgb, big_rgb. replace (24 * i + j <? 24 * (w / 8)) with true by lia.
  rewrite div_mul_add, mod_mul_add by lia. reflexivity.
Qed.
Lemma torgb_bytes tab sd w so i r : 0 <= r < 3 -> 8 * (w / 8) <= i ->
  torgb tab sd w so (3 * i + r) = B (so + (sd * i + 2 - r)).
Proof.
  intros H L. unfold torgb, big_rgb. replace (3 * i + r <? 24 * (w / 8)) with false by lia.
  rewrite div_mul_add, mod_mul_add by lia. reflexivity.
Qed.

Lemma runs_swap_step1 tab w sd i so do_ : 8 * (w / 8) <= i ->
  (sd = 3 \/ sd = 4) -> 0 <= i -> 0 <= so -> 0 <= do_ ->
  so + sd * i + 3 <= cap ms dl src -> do_ + 3 * i + 3 <= cap ms dl dst ->
  so + sd * (i + 1) < usz T -> do_ + 3 * (i + 1) < usz T -> i + 1 < usz T ->
  runs (swap_copy_step1 sd 3 src dst (i, so + sd * i, do_ + 3 * i))
    (row n (s_off dst + do_ + 3 * i) 3 (fun j => torgb tab sd w so (3 * i + j)))
    (i + 1, so + sd * (i + 1), do_ + 3 * (i + 1)).
Proof.
  intros HE Hsd Hi Hso Hdo Ls Ld Os Od Ox. unfold swap_copy_step1.
  destruct Hs as (Hs1 & Hs2 & _). destruct Hd as (Hd1 & Hd2 & _).
  assert (0 <= sd * i) by nia.
  eapply runs_iff.
  - eapply runs_bind0; [apply exec_uadd; lia|].
    eapply runs_bind0; [apply exec_ld; auto; lia|].
    eapply runs_bind; [eapply runs_st; eauto; lia|].
    eapply runs_bind0; [apply exec_uadd; lia|].
    eapply runs_bind0; [apply exec_ld; auto; lia|].
    eapply runs_bind0; [apply exec_uadd; lia|].
    eapply runs_bind; [eapply runs_st; eauto; lia|].
    eapply runs_bind0; [apply exec_ld; auto; lia|].
    eapply runs_bind0; [apply exec_uadd; lia|].
    eapply runs_bind1; [eapply runs_st; eauto; lia|].
    eapply exec_bind0; [apply exec_uadd; lia|].
    eapply exec_bind0; [apply exec_uadd; lia|].
    eapply exec_bind0; [apply exec_uadd; lia|].
    eapply exec_eq; [apply exec_ret|reflexivity|].
    apply f_equal2; [apply f_equal2|]; lia.
  - intros wr. unfold wunion. rewrite row_iff. split.
    + intros [->|[->| ->]]; [exists 0|exists 1|exists 2]; (split; [lia|]);
        rewrite torgb_bytes by lia; idtac;
        (apply write_eq; [lia|first [reflexivity | f_equal; lia]]).
    + intros (j & Hj & ->). rewrite torgb_bytes by lia.
      assert (j = 0 \/ j = 1 \/ j = 2) as [->|[->| ->]] by lia;
        idtac;
        [left|right;left|right;right]; (apply write_eq; [lia|first [reflexivity | f_equal; lia]]).
Qed.

Ltac st64 HBy := eapply runs_st_u64; [exact Hd|solve_bytes; apply HBy|reflexivity|lia|lia].

Lemma runs_bgr_step8 w i so do_ : 24 * i + 24 <= 24 * (w / 8) ->
  0 <= i -> 0 <= so -> 0 <= do_ ->
  so + 24 * i + 24 <= cap ms dl src -> do_ + 24 * i + 24 <= cap ms dl dst ->
  so + 24 * (i + 1) < usz T -> do_ + 24 * (i + 1) < usz T -> 8 * (i + 1) < usz T ->
  runs (bgr_to_rgb_step8 src dst (8 * i, so + 24 * i, do_ + 24 * i))
    (row n (s_off dst + do_ + 24 * i) 24 (fun j => torgb big_bgr_order 3 w so (24 * i + j)))
    (8 * (i + 1), so + 24 * (i + 1), do_ + 24 * (i + 1)).
Proof.
  intros HE Hi Hso Hdo Ls Ld Os Od Ox. unfold bgr_to_rgb_step8.
  assert (HBy : forall i, is_byte (B i)) by (intros; apply byte_range; auto).
  set (s0 := so + 24 * i) in *. set (d0 := do_ + 24 * i) in *.
  assert (0 <= s0) by lia. assert (0 <= d0) by lia.
  eapply runs_iff.
  - eapply runs_bind0; [apply exec_ld_u64; auto; lia|].
    eapply runs_bind0; [apply exec_ld_u64; auto; lia|].
    eapply runs_bind0; [apply exec_ld_u64; auto; lia|].
    cbn [zseq map rev app].
    rewrite bgr_to_rgb_words_bytes by (solve_bytes; apply HBy).
    eapply runs_bind; [st64 HBy|].
    eapply runs_bind; [st64 HBy|].
    eapply runs_bind1; [st64 HBy|].
    eapply exec_bind0; [apply exec_uadd; lia|].
    eapply exec_bind0; [apply exec_uadd; lia|].
    eapply exec_bind0; [apply exec_uadd; lia|].
    eapply exec_eq; [apply exec_ret|reflexivity|].
    unfold s0, d0. apply f_equal2; [apply f_equal2|]; lia.
  - intros wr. unfold wunion.
    replace (s_off dst + (d0 + 8)) with (s_off dst + d0 + 8) by lia.
    replace (s_off dst + (d0 + 16)) with (s_off dst + d0 + 8 + 8) by lia.
    rewrite !bytes_row_cons2 by reflexivity. cbn [app rev].
    unfold bytes_row. apply row_ext; [unfold d0; lia|reflexivity|].
    intros j Hj. change (zlen _) with 24 in Hj.
    unfold s0. clear - Hj HE.
    rewrite torgb_words by auto. clear HE. cases_j j Hj; fold_lits; cbn [nth big_bgr_order]; f_equal; lia.
Qed.

Lemma runs_bgra_step8 w i so do_ : 24 * i + 24 <= 24 * (w / 8) ->
  0 <= i -> 0 <= so -> 0 <= do_ ->
  so + 32 * i + 32 <= cap ms dl src -> do_ + 24 * i + 24 <= cap ms dl dst ->
  so + 32 * (i + 1) < usz T -> do_ + 24 * (i + 1) < usz T -> 8 * (i + 1) < usz T ->
  runs (bgra_to_rgb_step8 src dst (8 * i, so + 32 * i, do_ + 24 * i))
    (row n (s_off dst + do_ + 24 * i) 24 (fun j => torgb big_bgra_order 4 w so (24 * i + j)))
    (8 * (i + 1), so + 32 * (i + 1), do_ + 24 * (i + 1)).
Proof.
  intros HE Hi Hso Hdo Ls Ld Os Od Ox. unfold bgra_to_rgb_step8. cbv zeta.
  assert (HBy : forall i, is_byte (B i)) by (intros; apply byte_range; auto).
  set (s0 := so + 32 * i) in *. set (d0 := do_ + 24 * i) in *.
  assert (0 <= s0) by lia. assert (0 <= d0) by lia.
  eapply runs_iff.
  - eapply runs_bind0; [apply exec_ld_u64; auto; lia|].
    eapply runs_bind0; [apply exec_ld_u64; auto; lia|].
    eapply runs_bind0; [apply exec_ld_u64; auto; lia|].
    eapply runs_bind0; [apply exec_ld_u64; auto; lia|].
    cbn [zseq map rev app].
    rewrite !bgra_to_rgb_word_bytes by (solve_bytes; apply HBy).
    rewrite (proj1 (bgra_words _ _ _ _ _ _ _ _ _ _ _ _ 0 0 0 0 0 0 0 0 0 0 0 0
      ltac:(solve_bytes; apply HBy) ltac:(solve_bytes; apply HBy) ltac:(solve_bytes) ltac:(solve_bytes))).
    rewrite (proj1 (proj2 (bgra_words 0 0 0 0 0 0 _ _ _ _ _ _ _ _ _ _ _ _ 0 0 0 0 0 0
      ltac:(solve_bytes) ltac:(solve_bytes; apply HBy) ltac:(solve_bytes; apply HBy) ltac:(solve_bytes)))).
    rewrite (proj2 (proj2 (bgra_words 0 0 0 0 0 0 0 0 0 0 0 0 _ _ _ _ _ _ _ _ _ _ _ _
      ltac:(solve_bytes) ltac:(solve_bytes) ltac:(solve_bytes; apply HBy) ltac:(solve_bytes; apply HBy)))).
    eapply runs_bind; [st64 HBy|].
    eapply runs_bind; [st64 HBy|].
    eapply runs_bind1; [st64 HBy|].
    eapply exec_bind0; [apply exec_uadd; lia|].
    eapply exec_bind0; [apply exec_uadd; lia|].
    eapply exec_bind0; [apply exec_uadd; lia|].
    eapply exec_eq; [apply exec_ret|reflexivity|].
    unfold s0, d0. apply f_equal2; [apply f_equal2|]; lia.
  - intros wr. unfold wunion.
    replace (s_off dst + (d0 + 8)) with (s_off dst + d0 + 8) by lia.
    replace (s_off dst + (d0 + 16)) with (s_off dst + d0 + 8 + 8) by lia.
    rewrite !bytes_row_cons2 by reflexivity. cbn [app rev].
    unfold bytes_row. apply row_ext; [unfold d0; lia|reflexivity|].
    intros j Hj. change (zlen _) with 24 in Hj.
    unfold s0. clear - Hj HE.
    rewrite torgb_words by auto. clear HE. cases_j j Hj; fold_lits; cbn [nth big_bgra_order]; f_equal; lia.
Qed.

Lemma lower8' w : 0 <= w -> lower_multiple_of_pot w 8 = 8 * (w / 8) /\ 0 <= w / 8 /\ 8 * (w / 8) <= w < 8 * (w / 8) + 8.
Proof.
  intros H. unfold lower_multiple_of_pot.
  change (8 - 1) with (Z.ones 3). rewrite Z.land_ones by lia. change (2 ^ 3) with 8.
  pose proof (Z.div_mod w 8 ltac:(lia)). pose proof (Z.mod_pos_bound w 8 ltac:(lia)). lia.
Qed.

(** One line, common to the two kernels: [step] is the 8-pixel step. *)
Lemma runs_to_rgb_line tab sd step width so do_ :
  (sd = 3 \/ sd = 4) -> 0 <= width -> width < usz T ->
  (forall i, 24 * i + 24 <= 24 * (width / 8) -> 0 <= i -> so + 8 * sd * i + 8 * sd <= cap ms dl src -> do_ + 24 * i + 24 <= cap ms dl dst ->
     so + 8 * sd * (i + 1) < usz T -> do_ + 24 * (i + 1) < usz T -> 8 * (i + 1) < usz T ->
     runs (step (8 * i, so + 8 * sd * i, do_ + 24 * i))
       (row n (s_off dst + do_ + 24 * i) 24 (fun j => torgb tab sd width so (24 * i + j)))
       (8 * (i + 1), so + 8 * sd * (i + 1), do_ + 24 * (i + 1))) ->
  0 <= so -> 0 <= do_ -> so + sd * width + tail sd width <= cap ms dl src -> so + sd * width < usz T ->
  do_ + 3 * width <= cap ms dl dst ->
  runs (s1 <- loop (Z.to_nat ((lower_multiple_of_pot width 8 + 7) / 8)) (0, so, do_) step ;;
        loop (Z.to_nat (width - fst (fst s1))) s1 (swap_copy_step1 sd 3 src dst) ;; ret tt)
    (row n (s_off dst + do_) (3 * width) (torgb tab sd width so)) tt.
Proof.
  intros Hsd Hw Hu Hstep Hso Hdo Ls Lu Ld.
  assert (Us : cap ms dl src < usz T) by apply Hs. assert (Ud : cap ms dl dst < usz T) by apply Hd.
  destruct (lower8' width Hw) as (-> & Hm0 & Hm1).
  remember (width / 8) as m eqn:Em.
  assert (L3 : forall i, i < width -> so + sd * i + 3 <= cap ms dl src).
  { intros i Hi. unfold tail in Ls. destruct Hsd as [->| ->]; [cbn [Z.eqb Pos.eqb andb] in Ls|destruct (_ && _) in Ls]; lia. }
  assert (L8' : forall i, i < m -> so + 8 * sd * i + 8 * sd <= cap ms dl src).
  { intros i Hi. unfold tail in Ls. destruct Hsd as [->| ->]; [cbn [Z.eqb Pos.eqb andb] in Ls; lia|].
    change (4 =? 4) with true in Ls. cbn [andb] in Ls. destruct (Z.eqb_spec (width mod 8) 0) as [E|E]; cbn [negb] in Ls; [lia|].
    assert (8 * m <> width) by (intros E'; apply E; rewrite <- E', Z.mul_comm; apply Z.mod_mul; lia). lia. }
  rewrite (div_mul_add 8 m 7) by lia.
  pose proof (runs_loop0 T ms dl m (fun i => (8 * i, so + 8 * sd * i, do_ + 24 * i)) step
    (fun i => row n (s_off dst + do_ + 24 * i) 24 (fun j => torgb tab sd width so (24 * i + j)))) as L8.
  cbv beta in L8. rewrite !Z.mul_0_r, !Z.add_0_r in L8.
  assert (Hb2 : forall wr, (exists i, 0 <= i < m /\ row n (s_off dst + do_ + 24 * i) 24 (fun j => torgb tab sd width so (24 * i + j)) wr)
     <-> row n (s_off dst + do_) (24 * m) (torgb tab sd width so) wr).
  { intros wr. rewrite <- (row_chunks n (s_off dst + do_) 24 (torgb tab sd width so) 0 m wr) by lia.
    apply row_ext; try lia. intros; f_equal; lia. }
  pose proof (runs_loop T ms dl (Z.to_nat (width - 8 * m)) (fun i => (i, so + sd * i, do_ + 3 * i))
    (swap_copy_step1 sd 3 src dst)
    (fun i => row n (s_off dst + do_ + 3 * i) 3 (fun j => torgb tab sd width so (3 * i + j))) (8 * m)) as L1.
  cbv beta in L1.
  replace (8 * m + Z.of_nat (Z.to_nat (width - 8 * m))) with (8 * m + (width - 8 * m)) in L1 by lia.
  assert (Hb1 : forall wr, (exists i, 8 * m <= i < 8 * m + (width - 8 * m) /\
        row n (s_off dst + do_ + 3 * i) 3 (fun j => torgb tab sd width so (3 * i + j)) wr)
     <-> row n (s_off dst + do_ + 3 * (8 * m)) (3 * (width - 8 * m)) (fun j => torgb tab sd width so (3 * (8 * m) + j)) wr).
  { intros wr. rewrite <- (row_chunks n (s_off dst + do_) 3 (torgb tab sd width so) (8 * m)) by lia. reflexivity. }
  eapply runs_iff.
  - eapply runs_bind.
    { apply L8; auto. intros i Hi. specialize (L8' i). apply Hstep; destruct Hsd as [->| ->]; lia. }
    cbn [fst].
    eapply runs_bind1; [|apply exec_ret].
    replace (so + 8 * sd * m) with (so + sd * (8 * m)) by lia.
    replace (do_ + 24 * m) with (do_ + 3 * (8 * m)) by lia.
    apply L1. intros i Hi. specialize (L3 i). apply runs_swap_step1; destruct Hsd as [->| ->]; lia.
  - intros wr. unfold wunion. rewrite Hb2, Hb1.
    replace (3 * width) with (24 * m + 3 * (width - 8 * m)) by lia.
    rewrite row_app by lia.
    apply or_iff; [reflexivity|]. apply row_ext; try lia; intros; f_equal; lia.
Qed.

Lemma runs_bgr_to_rgb width height ss ds :
  0 <= width -> width < usz T ->
  fits src ss height (3 * width) -> fits dst ds height (3 * width) ->
  runs (bgr_to_rgb width height ss src ds dst)
    (in_area (Area n (s_off dst) ds height (3 * width)
      (fun y j => big_byte Bgr Rgb width (ss - 3 * width) (y =? height - 1) (fun o => B (ss * y + o)) j))) tt.
Proof.
  intros Hw Hu Fs Fd. unfold bgr_to_rgb. cbv zeta.
  assert (Us : cap ms dl src < usz T) by apply Hs. assert (Ud : cap ms dl dst < usz T) by apply Hd.
  eapply runs_iff.
  - apply runs_for with (P := fun y => row n (s_off dst + ds * y) (3 * width) (torgb big_bgr_order 3 width (ss * y))).
    intros y Hy.
    assert (0 <= ss * y /\ ss * y + 3 * width <= cap ms dl src) by (destruct Fs; nia).
    assert (0 <= ds * y /\ ds * y + 3 * width <= cap ms dl dst) by (destruct Fd; nia).
    eapply runs_bind0; [apply exec_umul; lia|].
    eapply runs_bind0; [apply exec_umul; lia|].
    apply (runs_to_rgb_line big_bgr_order 3 (bgr_to_rgb_step8 src dst)); auto; try (change (tail 3 width) with 0; lia).
    intros i HE Hi. change (8 * 3) with 24. intros. apply runs_bgr_step8; lia.
  - intros wr. rewrite <- rows_area. reflexivity.
Qed.

Lemma runs_bgra_to_rgb width height ss ds :
  0 <= width -> 0 < height -> width < usz T -> 4 * width <= ss -> ss * height < usz T -> 3 * width <= ds < usz T ->
  fits src ss height (4 * width + tail 4 width) -> fits dst ds height (3 * width) ->
  runs (bgra_to_rgb width height ss src ds dst)
    (in_area (Area n (s_off dst) ds height (3 * width)
      (fun y j => big_byte Bgra Rgb width (ss - 4 * width) (y =? height - 1) (fun o => B (ss * y + o)) j))) tt.
Proof.
  intros Hw Hh Hu Hss Hsh Hds Fs Fd. unfold bgra_to_rgb. cbv zeta.
  assert (0 <= ss * (height - 1)) by (apply Z.mul_nonneg_nonneg; [apply Fs|lia]).
  assert (Us : cap ms dl src < usz T) by apply Hs. assert (Ud : cap ms dl dst < usz T) by apply Hd.
  eapply runs_bind0; [apply exec_umul; lia|].
  eapply runs_bind0; [apply exec_usub; lia|].
  eapply runs_bind0; [apply exec_umul; lia|].
  eapply runs_bind0; [apply exec_usub; lia|].
  eapply runs_iff.
  - apply runs_for with (P := fun y => row n (s_off dst + ds * y) (3 * width) (torgb big_bgra_order 4 width (ss * y))).
    intros y Hy.
    assert (0 <= ss * y <= ss * (height - 1)) by (destruct Fs; nia).
    assert (ss * y + 4 * width + tail 4 width <= cap ms dl src) by (destruct Fs; lia).
    assert (0 <= ds * y /\ ds * y + 3 * width <= cap ms dl dst) by (destruct Fd; nia).
    eapply runs_bind0; [apply exec_umul; lia|].
    eapply runs_bind0; [apply exec_uadd; lia|].
    replace (4 * width + (ss - 4 * width)) with ss by lia.
    eapply runs_bind0; [apply exec_umul; lia|].
    eapply runs_bind0; [apply exec_umul; lia|].
    eapply runs_bind0; [apply exec_uadd; lia|].
    replace (3 * width + (ds - 3 * width)) with ds by lia.
    eapply runs_bind0; [apply exec_umul; lia|].
    apply (runs_to_rgb_line big_bgra_order 4 (bgra_to_rgb_step8 src dst)); auto; try lia.
    intros i HE Hi. change (8 * 4) with 32. intros. apply runs_bgra_step8; lia.
  - intros wr. rewrite <- rows_area. reflexivity.
Qed.

End ToRgb.
End Reorder.
