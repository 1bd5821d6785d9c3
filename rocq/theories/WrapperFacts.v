(** Equations for the validating wrappers: what they compute before calling the
    kernel, for any memory. *)
From Coq Require Import ZArith List Bool Lia ZifyBool ZifyNat.
Import ListNotations.
From Verif Require Import Base Exec Common Scalar Wrappers.
Open Scope Z_scope.
Ltac Zify.zify_post_hook ::= Z.div_mod_to_equations.

(** The test really performed by [out_of_bounds] as it is called. *)
Definition accepts (len stride rows row : Z) : bool := stride + row * (rows - 1) <=? len.

(** Element [i] of an array the callee sees. *)
Definition has {A} (a : arr A) (i : Z) (x : A) : Prop :=
  0 <= i < alen a /\ nth_error (adata a) (Z.to_nat i) = Some x.

Definition usz_range (T : target) (x : Z) : Prop := 0 <= x < usz T.

Section Eq.
Variable T : target.
Variable m : mem.

Lemma umul_eq a b : 0 <= a * b < usz T -> umul a b T m = Ok (a * b) m.
Proof.
  intros H. (unfold umul, ures; cbn [run]).
  replace ((0 <=? a * b) && (a * b <? usz T)) with true by lia. reflexivity.
Qed.
Lemma usub_eq a b : 0 <= a - b < usz T -> usub a b T m = Ok (a - b) m.
Proof.
  intros H. (unfold usub, ures; cbn [run]).
  replace ((0 <=? a - b) && (a - b <? usz T)) with true by lia. reflexivity.
Qed.

Lemma aidx_eq {A} (a : arr A) i x : has a i x -> aidx a i T m = Ok x m.
Proof.
  intros [H1 H2]. unfold aidx. replace ((0 <=? i) && (i <? alen a)) with true by lia.
  rewrite H2. reflexivity.
Qed.

Lemma bind_eq {A B} (c : M A) (k : A -> M B) v : c T m = Ok v m -> bind c k T m = k v T m.
Proof. intros H. (unfold bind; cbn [run]). rewrite H. reflexivity. Qed.

Lemma oob_call_eq len stride h row :
  usz_range T len -> usz_range T stride -> usz_range T row -> 1 <= h < usz T ->
  oob_call len stride h row T m = Ok (negb (accepts len stride h row)) m.
Proof.
  unfold usz_range. intros Hl Hs Hr Hh. unfold oob_call.
  erewrite bind_eq by (apply usub_eq; lia).
  (unfold out_of_bounds, accepts, usize_max, ret; cbn [run]).
  destruct (Z.ltb_spec len stride).
  { apply (f_equal2 Ok); [|reflexivity]. assert (0 <= row * (h - 1)) by nia. lia. }
  destruct (Z.eqb_spec (h - 1) 0) as [E|E].
  { apply (f_equal2 Ok); [|reflexivity]. rewrite E. lia. }
  destruct (Z.ltb_spec ((usz T - 1) / (h - 1)) row) as [Hov|Hov].
  { apply (f_equal2 Ok); [|reflexivity].
    assert (usz T - 1 < row * (h - 1)).
    { pose proof (Z.mul_succ_div_gt (usz T - 1) (h - 1) ltac:(lia)). nia. }
    lia. }
  assert (row * (h - 1) <= usz T - 1).
  { pose proof (Z.mul_div_le (usz T - 1) (h - 1) ltac:(lia)). nia. }
  assert (0 <= row * (h - 1)) by nia.
  erewrite bind_eq by (apply umul_eq; lia).
  erewrite bind_eq by (apply usub_eq; lia).
  apply (f_equal2 Ok); [|reflexivity]. lia.
Qed.

Lemma orM_eq (a b : M bool) x y : a T m = Ok x m -> b T m = Ok y m -> orM a b T m = Ok (x || y) m.
Proof. intros Ha Hb. unfold orM. erewrite bind_eq by exact Ha. destruct x; auto. Qed.

Lemma split_at_eq s i : 0 <= i <= s_len s ->
  split_at s i T m = Ok (Slice (s_plane s) (s_off s) i,
                         Slice (s_plane s) (s_off s + i) (s_len s - i)) m.
Proof. intros H. unfold split_at. replace ((0 <=? i) && (i <=? s_len s)) with true by lia. reflexivity. Qed.

Ltac step := erewrite bind_eq by (first [apply umul_eq; assumption | apply aidx_eq; eassumption]).

(** ** NV12 to RGB *)

(** The two planes of an NV12 image, given its first and last buffer. *)
Definition nv12_slices (last : Z) (b0 b1 : slice) (n : Z) : slice * slice :=
  if last =? 0 then (Slice (s_plane b0) (s_off b0) n,
                     Slice (s_plane b0) (s_off b0 + n) (s_len b0 - n))
  else (b0, b1).

Lemma nv12_rgb_w_eq depth k w h last ss sb last' ds db s0 s1 b0 b1 d0 bd :
  0 < w -> 1 < h < usz T -> usz_range T w -> usz_range T (depth * w) ->
  has ss 0 s0 -> has ss last s1 -> has sb 0 b0 -> has sb last b1 -> has ds 0 d0 -> has db 0 bd ->
  usz_range T s0 -> usz_range T s1 -> usz_range T d0 ->
  usz_range T (s_len b0) -> usz_range T (s_len b1) -> usz_range T (s_len bd) ->
  let ss0 := compute_stride s0 w in
  let ss1 := compute_stride s1 w in
  let dst_stride := compute_stride d0 (depth * w) in
  (last = 0 -> ss0 * h < usz T) ->
  let '(yb, uvb) := nv12_slices last b0 b1 (ss0 * h) in
  nv12_rgb_w depth k w h last ss sb last' ds db T m =
  (if negb ((last =? 0) && (s_len b0 <? ss0 * h)) && accepts (s_len yb) ss0 h w
      && accepts (s_len uvb) ss1 (h / 2) w && accepts (s_len bd) dst_stride h (depth * w)
   then (k w h (ss0, ss1) (yb, uvb) dst_stride bd ;; ret true) T m
   else Ok false m).
Proof.
  intros Hw Hh Uw Ud Hs0 Hs1 Hb0 Hb1 Hd0 Hbd Us0 Us1 Ud0 Ub0 Ub1 Ubd ss0 ss1 dst_stride Hov.
  unfold usz_range in *.
  assert (R0 : usz_range T ss0) by (unfold ss0, compute_stride, usz_range; destruct (s0 =? 0); lia).
  assert (R1 : usz_range T ss1) by (unfold ss1, compute_stride, usz_range; destruct (s1 =? 0); lia).
  assert (R2 : usz_range T dst_stride) by (unfold dst_stride, compute_stride, usz_range; destruct (d0 =? 0); lia).
  unfold usz_range in *.
  unfold nv12_slices, nv12_rgb_w.
  assert (Hl1 : last < alen ss /\ last < alen sb /\ alen ds <> 0 /\ alen db <> 0)
    by (destruct Hs1, Hb1, Hd0, Hbd; lia).
  replace ((w =? 0) || (h =? 0)) with false by lia.
  replace ((alen ss <=? last) || (alen sb <=? last) || (alen ds =? 0) || (alen db =? 0)) with false by lia.
  cbv zeta. step. step. step. step. step. step.
  change (compute_stride s0 w) with ss0. change (compute_stride s1 w) with ss1.
  change (compute_stride d0 (depth * w)) with dst_stride.
  destruct (Z.eqb_spec last 0) as [E|E].
  - specialize (Hov E). assert (0 <= ss0 * h) by nia.
    destruct (Z.ltb_spec (s_len b0) (ss0 * h)) as [Hlt|Hge].
    + cbn [andb negb]. erewrite bind_eq.
      2:{ erewrite bind_eq by (apply umul_eq; lia).
          replace (s_len b0 <? ss0 * h) with true by lia. reflexivity. }
      reflexivity.
    + cbn [andb negb]. erewrite bind_eq.
      2:{ erewrite bind_eq by (apply umul_eq; lia).
          replace (s_len b0 <? ss0 * h) with false by lia.
          erewrite bind_eq by (apply umul_eq; lia).
          erewrite bind_eq by (apply split_at_eq; lia). reflexivity. }
      cbv beta iota. step. erewrite bind_eq.
      2:{ apply orM_eq; [apply oob_call_eq; unfold usz_range; cbn [s_len]; lia|].
          apply orM_eq; apply oob_call_eq; unfold usz_range; cbn [s_len]; lia. }
      cbn [s_len].
      destruct (accepts (ss0 * h) ss0 h w), (accepts (s_len b0 - ss0 * h) ss1 (h / 2) w),
        (accepts (s_len bd) dst_stride h (depth * w)); reflexivity.
  - cbn [andb negb]. erewrite bind_eq by reflexivity. cbv beta iota. step. erewrite bind_eq.
    2:{ apply orM_eq; [apply oob_call_eq; unfold usz_range; lia|].
        apply orM_eq; apply oob_call_eq; unfold usz_range; lia. }
    destruct (accepts (s_len b0) ss0 h w), (accepts (s_len b1) ss1 (h / 2) w),
      (accepts (s_len bd) dst_stride h (depth * w)); reflexivity.
Qed.

(** ** I420 / I444 to RGB *)
Lemma i4xx_rgb_w_eq sub depth k w h last ss sb last' ds db s0 s1 s2 b0 b1 b2 d0 bd :
  0 < sub -> 0 < w -> 0 < h < usz T -> 0 < h / sub -> usz_range T w -> usz_range T (depth * w) ->
  has ss 0 s0 -> has ss 1 s1 -> has ss 2 s2 -> has sb 0 b0 -> has sb 1 b1 -> has sb 2 b2 ->
  has ds 0 d0 -> has db 0 bd ->
  usz_range T s0 -> usz_range T s1 -> usz_range T s2 -> usz_range T d0 ->
  usz_range T (s_len b0) -> usz_range T (s_len b1) -> usz_range T (s_len b2) -> usz_range T (s_len bd) ->
  let ss0 := compute_stride s0 w in
  let ss1 := compute_stride s1 (w / sub) in
  let ss2 := compute_stride s2 (w / sub) in
  let dst_stride := compute_stride d0 (depth * w) in
  i4xx_rgb_w sub depth k w h last ss sb last' ds db T m =
  (if accepts (s_len b0) ss0 h w && accepts (s_len b1) ss1 (h / sub) (w / sub)
      && accepts (s_len b2) ss2 (h / sub) (w / sub) && accepts (s_len bd) dst_stride h (depth * w)
   then (k w h (ss0, ss1, ss2) (b0, b1, b2) dst_stride bd ;; ret true) T m
   else Ok false m).
Proof.
  intros Hsub Hw Hh Hch Uw Ud Hs0 Hs1 Hs2 Hb0 Hb1 Hb2 Hd0 Hbd Us0 Us1 Us2 Ud0 Ub0 Ub1 Ub2 Ubd
    ss0 ss1 ss2 dst_stride.
  unfold usz_range in *.
  assert (Hcw : 0 <= w / sub <= w) by (split; [apply Z.div_pos; lia|apply Z.div_le_upper_bound; nia]).
  assert (Hch' : h / sub <= h) by (apply Z.div_le_upper_bound; nia).
  assert (R0 : 0 <= ss0 < usz T) by (unfold ss0, compute_stride; destruct (s0 =? 0); lia).
  assert (R1 : 0 <= ss1 < usz T) by (unfold ss1, compute_stride; destruct (s1 =? 0); lia).
  assert (R3 : 0 <= ss2 < usz T) by (unfold ss2, compute_stride; destruct (s2 =? 0); lia).
  assert (R2 : 0 <= dst_stride < usz T) by (unfold dst_stride, compute_stride; destruct (d0 =? 0); lia).
  unfold i4xx_rgb_w.
  assert (Hl1 : 3 <= alen ss /\ 3 <= alen sb /\ alen ds <> 0 /\ alen db <> 0)
    by (destruct Hs2, Hb2, Hd0, Hbd; lia).
  replace ((w =? 0) || (h =? 0)) with false by lia.
  replace ((alen ss <? 3) || (alen sb <? 3) || (alen ds =? 0) || (alen db =? 0)) with false by lia.
  cbv zeta. step. step. step. step. step. step. step. step. step.
  change (compute_stride s0 w) with ss0. change (compute_stride s1 (w / sub)) with ss1.
  change (compute_stride s2 (w / sub)) with ss2.
  change (compute_stride d0 (depth * w)) with dst_stride.
  erewrite bind_eq.
  2:{ apply orM_eq; [apply oob_call_eq; unfold usz_range; lia|].
      apply orM_eq; [apply oob_call_eq; unfold usz_range; lia|].
      apply orM_eq; apply oob_call_eq; unfold usz_range; lia. }
  destruct (accepts (s_len b0) ss0 h w), (accepts (s_len b1) ss1 (h / sub) (w / sub)),
    (accepts (s_len b2) ss2 (h / sub) (w / sub)), (accepts (s_len bd) dst_stride h (depth * w)); reflexivity.
Qed.

(** ** RGB to I420 / I444 *)
Lemma rgb_i4xx_w_eq sub depth k w h last ss sb last' ds db s0 bs d0 d1 d2 b0 b1 b2 :
  0 < sub -> 0 < w -> 0 < h < usz T -> 0 < h / sub -> usz_range T w -> usz_range T (depth * w) ->
  has ss 0 s0 -> has sb 0 bs -> has ds 0 d0 -> has ds 1 d1 -> has ds 2 d2 ->
  has db 0 b0 -> has db 1 b1 -> has db 2 b2 ->
  usz_range T s0 -> usz_range T d0 -> usz_range T d1 -> usz_range T d2 ->
  usz_range T (s_len bs) -> usz_range T (s_len b0) -> usz_range T (s_len b1) -> usz_range T (s_len b2) ->
  let src_stride := compute_stride s0 (depth * w) in
  let ds0 := compute_stride d0 w in
  let ds1 := compute_stride d1 (w / sub) in
  let ds2 := compute_stride d2 (w / sub) in
  rgb_i4xx_w sub depth k w h last ss sb last' ds db T m =
  (if accepts (s_len bs) src_stride h (depth * w) && accepts (s_len b0) ds0 h w
      && accepts (s_len b1) ds1 (h / sub) (w / sub) && accepts (s_len b2) ds2 (h / sub) (w / sub)
   then (k w h src_stride bs (ds0, ds1, ds2) (b0, b1, b2) ;; ret true) T m
   else Ok false m).
Proof.
  intros Hsub Hw Hh Hch Uw Ud Hs0 Hbs Hd0 Hd1 Hd2 Hb0 Hb1 Hb2 Us0 Ud0 Ud1 Ud2 Ubs Ub0 Ub1 Ub2
    src_stride ds0 ds1 ds2.
  unfold usz_range in *.
  assert (Hcw : 0 <= w / sub <= w) by (split; [apply Z.div_pos; lia|apply Z.div_le_upper_bound; nia]).
  assert (Hch' : h / sub <= h) by (apply Z.div_le_upper_bound; nia).
  assert (R0 : 0 <= ds0 < usz T) by (unfold ds0, compute_stride; destruct (d0 =? 0); lia).
  assert (R1 : 0 <= ds1 < usz T) by (unfold ds1, compute_stride; destruct (d1 =? 0); lia).
  assert (R3 : 0 <= ds2 < usz T) by (unfold ds2, compute_stride; destruct (d2 =? 0); lia).
  assert (R2 : 0 <= src_stride < usz T) by (unfold src_stride, compute_stride; destruct (s0 =? 0); lia).
  unfold rgb_i4xx_w.
  assert (Hl1 : alen ss <> 0 /\ alen sb <> 0 /\ 3 <= alen ds /\ 3 <= alen db)
    by (destruct Hs0, Hbs, Hd2, Hb2; lia).
  replace ((w =? 0) || (h =? 0)) with false by lia.
  replace ((alen ss =? 0) || (alen sb =? 0) || (alen ds <? 3) || (alen db <? 3)) with false by lia.
  cbv zeta. step. step. step. step. step. step. step. step. step.
  change (compute_stride d0 w) with ds0. change (compute_stride d1 (w / sub)) with ds1.
  change (compute_stride d2 (w / sub)) with ds2.
  change (compute_stride s0 (depth * w)) with src_stride.
  erewrite bind_eq.
  2:{ apply orM_eq; [apply oob_call_eq; unfold usz_range; lia|].
      apply orM_eq; [apply oob_call_eq; unfold usz_range; lia|].
      apply orM_eq; apply oob_call_eq; unfold usz_range; lia. }
  destruct (accepts (s_len bs) src_stride h (depth * w)), (accepts (s_len b0) ds0 h w),
    (accepts (s_len b1) ds1 (h / sub) (w / sub)), (accepts (s_len b2) ds2 (h / sub) (w / sub)); reflexivity.
Qed.

(** ** RGB to NV12 *)
Lemma rgb_nv12_w_eq depth k w h last' ss sb last ds db s0 bs d0 d1 b0 b1 :
  0 < w -> 1 < h < usz T -> usz_range T w -> usz_range T (depth * w) ->
  has ss 0 s0 -> has sb 0 bs -> has ds 0 d0 -> has ds last d1 -> has db 0 b0 -> has db last b1 ->
  usz_range T s0 -> usz_range T d0 -> usz_range T d1 ->
  usz_range T (s_len bs) -> usz_range T (s_len b0) -> usz_range T (s_len b1) ->
  let src_stride := compute_stride s0 (depth * w) in
  let ds0 := compute_stride d0 w in
  let ds1 := compute_stride d1 w in
  (last = 0 -> ds0 * h < usz T) ->
  let '(yb, uvb) := nv12_slices last b0 b1 (ds0 * h) in
  rgb_nv12_w depth k w h last' ss sb last ds db T m =
  (if negb ((last =? 0) && (s_len b0 <? ds0 * h)) && accepts (s_len bs) src_stride h (depth * w)
      && accepts (s_len yb) ds0 h w && accepts (s_len uvb) ds1 (h / 2) w
   then (k w h src_stride bs (ds0, ds1) (yb, uvb) ;; ret true) T m
   else Ok false m).
Proof.
  intros Hw Hh Uw Ud Hs0 Hbs Hd0 Hd1 Hb0 Hb1 Us0 Ud0 Ud1 Ubs Ub0 Ub1 src_stride ds0 ds1 Hov.
  unfold usz_range in *.
  assert (R0 : 0 <= ds0 < usz T) by (unfold ds0, compute_stride; destruct (d0 =? 0); lia).
  assert (R1 : 0 <= ds1 < usz T) by (unfold ds1, compute_stride; destruct (d1 =? 0); lia).
  assert (R2 : 0 <= src_stride < usz T) by (unfold src_stride, compute_stride; destruct (s0 =? 0); lia).
  unfold nv12_slices, rgb_nv12_w.
  assert (Hl1 : alen ss <> 0 /\ alen sb <> 0 /\ last < alen ds /\ last < alen db)
    by (destruct Hs0, Hbs, Hd1, Hb1; lia).
  replace ((w =? 0) || (h =? 0)) with false by lia.
  replace ((alen ss =? 0) || (alen sb =? 0) || (alen ds <=? last) || (alen db <=? last)) with false by lia.
  cbv zeta. step. step. step. step. step.
  change (compute_stride d0 w) with ds0. change (compute_stride d1 w) with ds1.
  change (compute_stride s0 (depth * w)) with src_stride.
  destruct (Z.eqb_spec last 0) as [E|E].
  - specialize (Hov E). assert (0 <= ds0 * h) by nia.
    assert (E' : aidx db last T m = Ok b0 m) by (rewrite E; apply aidx_eq; auto).
    destruct (Z.ltb_spec (s_len b0) (ds0 * h)) as [Hlt|Hge].
    + cbn [andb negb]. erewrite bind_eq.
      2:{ erewrite bind_eq by exact E'.
          erewrite bind_eq by (apply umul_eq; lia).
          replace (s_len b0 <? ds0 * h) with true by lia. reflexivity. }
      reflexivity.
    + cbn [andb negb]. erewrite bind_eq.
      2:{ erewrite bind_eq by exact E'.
          erewrite bind_eq by (apply umul_eq; lia).
          replace (s_len b0 <? ds0 * h) with false by lia.
          erewrite bind_eq by (apply umul_eq; lia).
          erewrite bind_eq by (apply split_at_eq; lia). reflexivity. }
      cbv beta iota. erewrite bind_eq.
      2:{ apply orM_eq; [apply oob_call_eq; unfold usz_range; cbn [s_len]; lia|].
          apply orM_eq; apply oob_call_eq; unfold usz_range; cbn [s_len]; lia. }
      cbn [s_len].
      destruct (accepts (s_len bs) src_stride h (depth * w)), (accepts (ds0 * h) ds0 h w),
        (accepts (s_len b0 - ds0 * h) ds1 (h / 2) w); reflexivity.
  - cbn [andb negb]. erewrite bind_eq.
    2:{ step. step. reflexivity. }
    cbv beta iota. erewrite bind_eq.
    2:{ apply orM_eq; [apply oob_call_eq; unfold usz_range; lia|].
        apply orM_eq; apply oob_call_eq; unfold usz_range; lia. }
    destruct (accepts (s_len bs) src_stride h (depth * w)), (accepts (s_len b0) ds0 h w),
      (accepts (s_len b1) ds1 (h / 2) w); reflexivity.
Qed.

(** ** RGB to RGB *)
Lemma rgb_rgb_w_eq sdepth ddepth k w h last' ss sb last ds db s0 bs d0 bd :
  0 < w -> 0 < h < usz T -> usz_range T w -> usz_range T (sdepth * w) -> usz_range T (ddepth * w) ->
  has ss 0 s0 -> has sb 0 bs -> has ds 0 d0 -> has db 0 bd ->
  usz_range T s0 -> usz_range T d0 -> usz_range T (s_len bs) -> usz_range T (s_len bd) ->
  let src_stride := compute_stride s0 (sdepth * w) in
  let dst_stride := compute_stride d0 (ddepth * w) in
  rgb_rgb_w sdepth ddepth k w h last' ss sb last ds db T m =
  (if accepts (s_len bs) src_stride h w && accepts (s_len bd) dst_stride h w
   then (k w h src_stride bs dst_stride bd ;; ret true) T m
   else Ok false m).
Proof.
  intros Hw Hh Uw Us Ud Hs0 Hbs Hd0 Hbd Us0 Ud0 Ubs Ubd src_stride dst_stride.
  unfold usz_range in *.
  assert (R1 : 0 <= dst_stride < usz T) by (unfold dst_stride, compute_stride; destruct (d0 =? 0); lia).
  assert (R2 : 0 <= src_stride < usz T) by (unfold src_stride, compute_stride; destruct (s0 =? 0); lia).
  unfold rgb_rgb_w.
  assert (Hl1 : alen ss <> 0 /\ alen sb <> 0 /\ alen ds <> 0 /\ alen db <> 0)
    by (destruct Hs0, Hbs, Hd0, Hbd; lia).
  replace ((w =? 0) || (h =? 0)) with false by lia.
  replace ((alen ss =? 0) || (alen sb =? 0) || (alen ds =? 0) || (alen db =? 0)) with false by lia.
  cbv zeta. step. step. step. step. step. step.
  change (compute_stride d0 (ddepth * w)) with dst_stride.
  change (compute_stride s0 (sdepth * w)) with src_stride.
  erewrite bind_eq.
  2:{ apply orM_eq; apply oob_call_eq; unfold usz_range; lia. }
  destruct (accepts (s_len bs) src_stride h w), (accepts (s_len bd) dst_stride h w); reflexivity.
Qed.

End Eq.
