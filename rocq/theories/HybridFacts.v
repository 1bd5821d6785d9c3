(** Images converted in two parts: the left columns by a vector kernel, the right ones by
    the portable kernel (the [hyb_*] functions of [Vector]). *)
From Coq Require Import ZArith List Bool Lia ZifyBool ZifyNat.
Import ListNotations.
From Verif Require Import Base Exec Area Fmt Common Scalar Wrappers Vector Lib Spec SimdSpec ApiSpec Api PixelFacts
  KernelBase ForwardProofs BackwardProofs VecForward VecBackward ReorderProofs VecReorder ConvProofs.
Open Scope Z_scope.

(** A width function gives a multiple of [W] that is not more than its argument. *)
Definition vp_ok (W : Z) (vp : Z -> Z) : Prop :=
  forall w, 0 <= w -> exists k, vp w = W * k /\ 0 <= k /\ W * k <= w.

(** Bytes that are read behind the last row of the image: [over] by the vector kernel behind
    its part, [sp] by the portable kernel (-1: it does not read the last byte). *)
Definition hyb_slack (vp : Z -> Z) (depth sp over w : Z) : Z :=
  if 0 <? vp w then Z.max sp (over - depth * (w - vp w)) else sp.

(** ** Areas *)
Lemma area_none n b s r f wr : in_area (Area n b s r 0 f) wr <-> False.
Proof. unfold in_area; cbn. split; [intros (y & j & _ & Hj & _); lia|tauto]. Qed.

Lemma area_split n b b' s r v s' w f f1 f2 wr :
  0 <= v -> 0 <= s' -> w = v + s' -> b' = b + v ->
  (forall y j, 0 <= y < r -> 0 <= j < v -> f1 y j = f y j) ->
  (forall y j, 0 <= y < r -> 0 <= j < s' -> f2 y j = f y (v + j)) ->
  in_area (Area n b s r v f1) wr \/ in_area (Area n b' s r s' f2) wr <-> in_area (Area n b s r w f) wr.
Proof.
  intros Hv Hs' -> -> H1 H2. rewrite area_cols by lia. apply or_iff; apply area_ext'; auto.
Qed.

Lemma out_split pf n s s2 stride h v w col col1 col2 wr :
  0 < bytes_per_pixel pf -> 0 <= v <= w -> s_off s2 = s_off s + v * bytes_per_pixel pf ->
  (forall x y, 0 <= y < h -> 0 <= x < v -> col1 x y = col x y) ->
  (forall x y, 0 <= y < h -> 0 <= x < w - v -> col2 x y = col (v + x) y) ->
  in_area (out_area pf col1 n s stride h v) wr \/ in_area (out_area pf col2 n s2 stride h (w - v)) wr <->
  in_area (out_area pf col n s stride h w) wr.
Proof.
  intros Hd Hv Es H1 H2. unfold out_area. set (d := bytes_per_pixel pf) in *.
  apply area_split; try nia.
  - intros y j Hy Hj. rewrite H1; auto. split; [apply Z.div_pos; lia|apply Z.div_lt_upper_bound; lia].
  - intros y j Hy Hj.
    assert (E1 : (d * v + j) / d = v + j / d) by (rewrite Z.add_comm, (Z.mul_comm d v), Z.div_add by lia; lia).
    assert (E2 : (d * v + j) mod d = j mod d) by (rewrite Z.add_comm, (Z.mul_comm d v), Z.mod_add by lia; lia).
    rewrite E1, E2, H2; auto. split; [apply Z.div_pos; lia|apply Z.div_lt_upper_bound; lia].
Qed.

Section Hybrid.
Variable T : target.
Variable ms : list (list Z).
Variable dl : list nat.

Notation runs := (runs T ms dl).
Notation from s i := (Slice (s_plane s) (s_off s + i) (s_len s - i)).

Lemma src_from s i : src_ok T ms dl s -> 0 <= i <= cap ms dl s -> src_ok T ms dl (from s i).
Proof.
  intros (H1 & H2 & H3 & H4) Hi. split; [apply view_ok_from; auto|split; [|split]].
  - exact H2.
  - rewrite cap_from. lia.
  - exact H4.
Qed.
Lemma dst_from s n i : dst_ok T ms dl s n -> 0 <= i <= cap ms dl s -> dst_ok T ms dl (from s i) n.
Proof.
  intros (H1 & H2 & H3 & H4) Hi. split; [apply view_ok_from; auto|split; [|split]].
  - exact H2.
  - rewrite cap_from. lia.
  - exact H4.
Qed.
Lemma slice_at s i : 0 <= i <= cap ms dl s -> exec T ms dl (slice_from s i) [] (from s i).
Proof. intros H. pose proof (cap_le ms dl s). apply exec_slice_from. lia. Qed.

Lemma fits_cap s stride rows cols : 0 < rows -> fits ms dl s stride rows cols -> cols <= cap ms dl s.
Proof. intros Hr [H1 H2]. nia. Qed.
Lemma fits_from s stride rows cols x cols' :
  fits ms dl s stride rows cols -> x + cols' <= cols -> fits ms dl (from s x) stride rows cols'.
Proof. intros H E. apply fits_shift. eapply fits_sub; eauto. Qed.

Lemma kpx_from smp s ss v x y :
  kpx ms smp (from s (v * sampler_depth smp)) ss x y = kpx ms smp s ss (v + x) y.
Proof.
  unfold kpx, pixel3. destruct smp; cbn [sampler_depth sampler_offsets]; rewrite !byte_from;
    apply f_equal2; [apply f_equal2| |apply f_equal2| |apply f_equal2|]; f_equal; lia.
Qed.
Lemma block_from smp s ss v x y :
  block_sum (kpx ms smp (from s (2 * v * sampler_depth smp)) ss) x y = block_sum (kpx ms smp s ss) (v + x) y.
Proof.
  unfold block_sum. rewrite !kpx_from. rewrite !Z.mul_add_distr_l, !Z.add_assoc. reflexivity.
Qed.

(** The two halves of a [hyb_*] function. *)
Lemma runs_if_pos v (c : M unit) P : 0 <= v ->
  (0 < v -> runs c P tt) -> (v = 0 -> forall w, ~ P w) -> runs (if 0 <? v then c else ret tt) P tt.
Proof.
  intros Hv H1 H0. destruct (Z.ltb_spec 0 v); auto.
  eapply runs_iff; [apply runs_ret|]. intros w. unfold wempty. split; [tauto|]. apply H0. lia.
Qed.
End Hybrid.

Ltac none := intros Z0 wr Hin; unfold wempty in *; cbn [in_areas] in Hin; unfold wunion, wempty in Hin;
  repeat match type of Hin with _ \/ _ => destruct Hin as [Hin|Hin] end; auto;
  unfold luma_area, uv_area, u_area, v_area, u444_area, v444_area, out_area in Hin;
  revert Hin; unfold in_area; cbn [a_rows a_cols]; intros (? & ? & _ & ? & _); nia.

Lemma left_lt v ar x : x < v -> left_cols v ar x = ar.
Proof. intros H. unfold left_cols. replace (x <? v) with true by lia. reflexivity. Qed.
Lemma left_ge v ar x : v <= x -> left_cols v ar x = spec_arith.
Proof. intros H. unfold left_cols. replace (x <? v) with false by lia. reflexivity. Qed.

Lemma hyb_1_2_ok T W hW over ar smp c vp kv ks :
  0 < W -> W = 2 * hW -> vp_ok W vp ->
  v12_ok T W over ar smp c kv -> k12_ok T (fun _ => spec_cols) (fun _ => spare smp) smp c ks ->
  k12_ok T (fun w => left_cols (vp w) ar) (hyb_slack vp (sampler_depth smp) (spare smp) over) smp c
    (hyb_1_2 vp (sampler_depth smp) kv ks).
Proof.
  intros HW EW Hvp Hkv Hks ms dl HB w h cw ch src ss ybuf ny ys uvbuf nuv uvs Hcw Hch Ew Eh Hs Hy Huv Fs Fy Fuv.
  unfold hyb_1_2. cbv zeta.
  destruct (Hvp w ltac:(lia)) as (k & Ev & Hk & Hkw).
  unfold hyb_slack in Fs. set (v := vp w) in *.
  assert (Dp : 3 <= sampler_depth smp) by (destruct smp; cbn; lia). set (d := sampler_depth smp) in *.
  assert (Hv : 0 <= v <= w) by nia.
  set (v2 := hW * k). assert (E2 : v = 2 * v2) by (unfold v2; nia).
  pose proof (fits_cap ms dl src ss h _ ltac:(lia) Fs) as Cs.
  pose proof (fits_cap ms dl ybuf ys h _ ltac:(lia) Fy) as Cy.
  pose proof (fits_cap ms dl uvbuf uvs ch _ ltac:(lia) Fuv) as Cuv.
  assert (Sp : -1 <= spare smp <= 0) by (destruct smp; cbn; lia). set (sp := spare smp) in *.
  assert (Sl : sp <= (if 0 <? v then Z.max sp (over - d * (w - v)) else sp)) by (destruct (0 <? v); lia).
  assert (Us : cap ms dl src < usz T) by apply Hs.
  assert (Dv : 0 <= v * d <= d * w) by nia.
  eapply runs_iff.
  - eapply runs_bind.
    + apply (runs_if_pos T ms dl v _ (in_areas [luma_area (fun _ => ar) (cs_of c) (kpx ms smp src ss) ny ybuf ys h v;
               uv_area (fun _ => ar) (cs_of c) (kpx ms smp src ss) nuv uvbuf uvs ch v2])); [lia| |none].
      intros Pv. eapply Hkv with (k := k); eauto.
      * eapply fits_sub; [exact Fs|]. replace (0 <? v) with true by lia. fold d. nia.
      * eapply fits_sub; [exact Fy|]. lia.
      * eapply fits_sub; [exact Fuv|]. lia.
    + set (src' := Slice (s_plane src) (s_off src + v * d) (s_len src - v * d)).
      set (y' := Slice (s_plane ybuf) (s_off ybuf + v) (s_len ybuf - v)).
      set (uv' := Slice (s_plane uvbuf) (s_off uvbuf + v) (s_len uvbuf - v)).
      apply (runs_if_pos T ms dl (w - v) _ (in_areas [luma_area spec_cols (cs_of c) (kpx ms smp src' ss) ny y' ys h (w - v);
               uv_area spec_cols (cs_of c) (kpx ms smp src' ss) nuv uv' uvs ch (cw - v2)])); [lia| |none].
      intros Pv. assert (v * d + d <= d * w) by nia.
      eapply runs_bind0; [apply exec_umul; lia|].
      eapply runs_bind0; [apply slice_at with (ms := ms) (dl := dl); lia|].
      eapply runs_bind0; [apply slice_at with (ms := ms) (dl := dl); cbn [fst]; lia|].
      eapply runs_bind0; [apply slice_at with (ms := ms) (dl := dl); cbn [snd]; lia|].
      cbn [fst snd]. fold src' y' uv'.
      apply (Hks ms dl HB (w - v) h (cw - v2) ch); try lia.
      * apply src_from; auto. lia.
      * apply dst_from; auto. lia.
      * apply dst_from; auto. lia.
      * eapply fits_from; [exact Fs|]. fold d. lia.
      * eapply fits_from; [exact Fy|]. lia.
      * eapply fits_from; [exact Fuv|]. lia.
  - intros wr. cbn [in_areas]. unfold wunion, wempty.
    rewrite <- (area_split ny (s_off ybuf) (s_off ybuf + v) ys h v (w - v) w
      (fun y j => ar_luma (left_cols v ar j) (cs_of c) (kpx ms smp src ss j y))
      (fun y j => ar_luma ar (cs_of c) (kpx ms smp src ss j y))
      (fun y j => ar_luma spec_arith (cs_of c)
         (kpx ms smp (Slice (s_plane src) (s_off src + v * d) (s_len src - v * d)) ss j y)) wr); try lia.
    2:{ intros y j Hyj Hj. rewrite left_lt by lia. reflexivity. }
    2:{ intros y j Hyj Hj. rewrite left_ge by lia. unfold d. rewrite kpx_from. reflexivity. }
    unfold uv_area at 3.
    rewrite <- (area_split nuv (s_off uvbuf) (s_off uvbuf + v) uvs ch (2 * v2) (2 * (cw - v2)) (2 * cw)
      (fun y j => if j mod 2 =? 0 then ar_cb (left_cols v ar (2 * (j / 2))) (cs_of c) 4 (block_sum (kpx ms smp src ss) (j / 2) y)
                  else ar_cr (left_cols v ar (2 * (j / 2))) (cs_of c) 4 (block_sum (kpx ms smp src ss) (j / 2) y))
      (fun y j => if j mod 2 =? 0 then ar_cb ar (cs_of c) 4 (block_sum (kpx ms smp src ss) (j / 2) y)
                  else ar_cr ar (cs_of c) 4 (block_sum (kpx ms smp src ss) (j / 2) y))
      (fun y j => let px := kpx ms smp (Slice (s_plane src) (s_off src + v * d) (s_len src - v * d)) ss in
                  if j mod 2 =? 0 then ar_cb spec_arith (cs_of c) 4 (block_sum px (j / 2) y)
                  else ar_cr spec_arith (cs_of c) 4 (block_sum px (j / 2) y)) wr); try lia.
    2:{ intros y j Hyj Hj. rewrite left_lt by (pose proof (Z.mul_div_le j 2); lia). reflexivity. }
    2:{ intros y j Hyj Hj. cbv zeta. rewrite left_ge by (rewrite half_add; pose proof (Z.div_pos j 2); lia).
        rewrite half_add_mod, half_add, E2. unfold d. rewrite !block_from. reflexivity. }
    unfold luma_area, uv_area. cbn [s_off]. fold d. tauto.
Qed.

Lemma hyb_420_ok T W hW over ar smp c vp kv ks :
  0 < W -> W = 2 * hW -> vp_ok W vp ->
  v420_ok T W over ar smp c kv -> k420_ok T (fun _ => spec_cols) (fun _ => spare smp) smp c ks ->
  k420_ok T (fun w => left_cols (vp w) ar) (hyb_slack vp (sampler_depth smp) (spare smp) over) smp c
    (hyb_1_3 vp 2 (sampler_depth smp) kv ks).
Proof.
  intros HW EW Hvp Hkv Hks ms dl HB w h cw ch src ss ybuf ny ys ubuf nu us vbuf nv vs
    Hcw Hch Ew Eh Hs Hy Hu Hv_ Fs Fy Fu Fv.
  unfold hyb_1_3. cbv zeta.
  destruct (Hvp w ltac:(lia)) as (k & Ev & Hk & Hkw).
  unfold hyb_slack in Fs. set (v := vp w) in *.
  assert (Dp : 3 <= sampler_depth smp) by (destruct smp; cbn; lia). set (d := sampler_depth smp) in *.
  assert (Hv : 0 <= v <= w) by nia.
  set (v2 := hW * k). assert (E2 : v = 2 * v2) by (unfold v2; nia).
  assert (E3 : v / 2 = v2) by (rewrite E2, Z.mul_comm; apply Z.div_mul; lia).
  pose proof (fits_cap ms dl src ss h _ ltac:(lia) Fs) as Cs.
  pose proof (fits_cap ms dl ybuf ys h _ ltac:(lia) Fy) as Cy.
  pose proof (fits_cap ms dl ubuf us ch _ ltac:(lia) Fu) as Cu.
  pose proof (fits_cap ms dl vbuf vs ch _ ltac:(lia) Fv) as Cv.
  assert (Sp : -1 <= spare smp <= 0) by (destruct smp; cbn; lia). set (sp := spare smp) in *.
  assert (Sl : sp <= (if 0 <? v then Z.max sp (over - d * (w - v)) else sp)) by (destruct (0 <? v); lia).
  assert (Us : cap ms dl src < usz T) by apply Hs.
  assert (Dv : 0 <= v * d <= d * w) by nia.
  set (src' := Slice (s_plane src) (s_off src + v * d) (s_len src - v * d)).
  set (y' := Slice (s_plane ybuf) (s_off ybuf + v) (s_len ybuf - v)).
  set (u' := Slice (s_plane ubuf) (s_off ubuf + v2) (s_len ubuf - v2)).
  set (v' := Slice (s_plane vbuf) (s_off vbuf + v2) (s_len vbuf - v2)).
  eapply runs_iff.
  - eapply runs_bind.
    + apply (runs_if_pos T ms dl v _ (in_areas [luma_area (fun _ => ar) (cs_of c) (kpx ms smp src ss) ny ybuf ys h v;
               u_area (fun _ => ar) (cs_of c) (kpx ms smp src ss) nu ubuf us ch v2;
               v_area (fun _ => ar) (cs_of c) (kpx ms smp src ss) nv vbuf vs ch v2])); [lia| |none].
      intros Pv. eapply Hkv with (k := k); eauto.
      * eapply fits_sub; [exact Fs|]. replace (0 <? v) with true by lia. fold d. nia.
      * eapply fits_sub; [exact Fy|]. lia.
      * eapply fits_sub; [exact Fu|]. lia.
      * eapply fits_sub; [exact Fv|]. lia.
    + apply (runs_if_pos T ms dl (w - v) _ (in_areas [luma_area spec_cols (cs_of c) (kpx ms smp src' ss) ny y' ys h (w - v);
               u_area spec_cols (cs_of c) (kpx ms smp src' ss) nu u' us ch (cw - v2);
               v_area spec_cols (cs_of c) (kpx ms smp src' ss) nv v' vs ch (cw - v2)])); [lia| |none].
      intros Pv. rewrite E3. assert (v * d + d <= d * w) by nia.
      eapply runs_bind0; [apply exec_umul; lia|].
      eapply runs_bind0; [apply slice_at with (ms := ms) (dl := dl); lia|].
      eapply runs_bind0; [apply slice_at with (ms := ms) (dl := dl); lia|].
      eapply runs_bind0; [apply slice_at with (ms := ms) (dl := dl); lia|].
      eapply runs_bind0; [apply slice_at with (ms := ms) (dl := dl); lia|].
      fold src' y' u' v'.
      apply (Hks ms dl HB (w - v) h (cw - v2) ch); try lia.
      * apply src_from; auto. lia.
      * apply dst_from; auto. lia.
      * apply dst_from; auto. lia.
      * apply dst_from; auto. lia.
      * eapply fits_from; [exact Fs|]. fold d. lia.
      * eapply fits_from; [exact Fy|]. lia.
      * eapply fits_from; [exact Fu|]. lia.
      * eapply fits_from; [exact Fv|]. lia.
  - intros wr. cbn [in_areas]. unfold wunion, wempty.
    assert (HY : in_area (luma_area (fun _ => ar) (cs_of c) (kpx ms smp src ss) ny ybuf ys h v) wr \/
       in_area (luma_area spec_cols (cs_of c) (kpx ms smp src' ss) ny y' ys h (w - v)) wr <->
       in_area (luma_area (left_cols v ar) (cs_of c) (kpx ms smp src ss) ny ybuf ys h w) wr).
    { apply area_split; try (cbn [s_off y']; lia).
      - intros y j Hyj Hj. rewrite left_lt by lia. reflexivity.
      - intros y j Hyj Hj. rewrite left_ge by lia. unfold src', d. rewrite kpx_from. reflexivity. }
    assert (HU : in_area (u_area (fun _ => ar) (cs_of c) (kpx ms smp src ss) nu ubuf us ch v2) wr \/
       in_area (u_area spec_cols (cs_of c) (kpx ms smp src' ss) nu u' us ch (cw - v2)) wr <->
       in_area (u_area (left_cols v ar) (cs_of c) (kpx ms smp src ss) nu ubuf us ch cw) wr).
    { apply area_split; try (cbn [s_off u']; lia).
      - intros y j Hyj Hj. rewrite left_lt by lia. reflexivity.
      - intros y j Hyj Hj. rewrite left_ge by lia. unfold src', d. rewrite E2, block_from. reflexivity. }
    assert (HV : in_area (v_area (fun _ => ar) (cs_of c) (kpx ms smp src ss) nv vbuf vs ch v2) wr \/
       in_area (v_area spec_cols (cs_of c) (kpx ms smp src' ss) nv v' vs ch (cw - v2)) wr <->
       in_area (v_area (left_cols v ar) (cs_of c) (kpx ms smp src ss) nv vbuf vs ch cw) wr).
    { apply area_split; try (cbn [s_off v']; lia).
      - intros y j Hyj Hj. rewrite left_lt by lia. reflexivity.
      - intros y j Hyj Hj. rewrite left_ge by lia. unfold src', d. rewrite E2, block_from. reflexivity. }
    rewrite <- HY, <- HU, <- HV. tauto.
Qed.

Lemma hyb_444_ok T W over ar smp c vp kv ks :
  0 < W -> vp_ok W vp ->
  v444_ok T W over ar smp c kv -> k444_ok T (fun _ => spec_cols) (fun _ => spare smp) smp c ks ->
  k444_ok T (fun w => left_cols (vp w) ar) (hyb_slack vp (sampler_depth smp) (spare smp) over) smp c
    (hyb_1_3 vp 1 (sampler_depth smp) kv ks).
Proof.
  intros HW Hvp Hkv Hks ms dl HB w h src ss ybuf ny ys ubuf nu us vbuf nv vs
    Hw Hh Hs Hy Hu Hv_ Fs Fy Fu Fv.
  unfold hyb_1_3. cbv zeta.
  destruct (Hvp w ltac:(lia)) as (k & Ev & Hk & Hkw).
  unfold hyb_slack in Fs. set (v := vp w) in *.
  assert (Dp : 3 <= sampler_depth smp) by (destruct smp; cbn; lia). set (d := sampler_depth smp) in *.
  assert (Hv : 0 <= v <= w) by nia.
  pose proof (fits_cap ms dl src ss h _ ltac:(lia) Fs) as Cs.
  pose proof (fits_cap ms dl ybuf ys h _ ltac:(lia) Fy) as Cy.
  pose proof (fits_cap ms dl ubuf us h _ ltac:(lia) Fu) as Cu.
  pose proof (fits_cap ms dl vbuf vs h _ ltac:(lia) Fv) as Cv.
  assert (Sp : -1 <= spare smp <= 0) by (destruct smp; cbn; lia). set (sp := spare smp) in *.
  assert (Sl : sp <= (if 0 <? v then Z.max sp (over - d * (w - v)) else sp)) by (destruct (0 <? v); lia).
  assert (Us : cap ms dl src < usz T) by apply Hs.
  assert (Dv : 0 <= v * d <= d * w) by nia.
  set (src' := Slice (s_plane src) (s_off src + v * d) (s_len src - v * d)).
  set (y' := Slice (s_plane ybuf) (s_off ybuf + v) (s_len ybuf - v)).
  set (u' := Slice (s_plane ubuf) (s_off ubuf + v) (s_len ubuf - v)).
  set (v' := Slice (s_plane vbuf) (s_off vbuf + v) (s_len vbuf - v)).
  eapply runs_iff.
  - eapply runs_bind.
    + apply (runs_if_pos T ms dl v _ (in_areas [luma_area (fun _ => ar) (cs_of c) (kpx ms smp src ss) ny ybuf ys h v;
               u444_area (fun _ => ar) (cs_of c) (kpx ms smp src ss) nu ubuf us h v;
               v444_area (fun _ => ar) (cs_of c) (kpx ms smp src ss) nv vbuf vs h v])); [lia| |none].
      intros Pv. eapply Hkv with (k := k); eauto.
      * eapply fits_sub; [exact Fs|]. replace (0 <? v) with true by lia. fold d. nia.
      * eapply fits_sub; [exact Fy|]. lia.
      * eapply fits_sub; [exact Fu|]. lia.
      * eapply fits_sub; [exact Fv|]. lia.
    + apply (runs_if_pos T ms dl (w - v) _ (in_areas [luma_area spec_cols (cs_of c) (kpx ms smp src' ss) ny y' ys h (w - v);
               u444_area spec_cols (cs_of c) (kpx ms smp src' ss) nu u' us h (w - v);
               v444_area spec_cols (cs_of c) (kpx ms smp src' ss) nv v' vs h (w - v)])); [lia| |none].
      intros Pv. rewrite Z.div_1_r. assert (v * d + d <= d * w) by nia.
      eapply runs_bind0; [apply exec_umul; lia|].
      eapply runs_bind0; [apply slice_at with (ms := ms) (dl := dl); lia|].
      eapply runs_bind0; [apply slice_at with (ms := ms) (dl := dl); lia|].
      eapply runs_bind0; [apply slice_at with (ms := ms) (dl := dl); lia|].
      eapply runs_bind0; [apply slice_at with (ms := ms) (dl := dl); lia|].
      fold src' y' u' v'.
      apply (Hks ms dl HB (w - v) h); try lia.
      * apply src_from; auto. lia.
      * apply dst_from; auto. lia.
      * apply dst_from; auto. lia.
      * apply dst_from; auto. lia.
      * eapply fits_from; [exact Fs|]. fold d. lia.
      * eapply fits_from; [exact Fy|]. lia.
      * eapply fits_from; [exact Fu|]. lia.
      * eapply fits_from; [exact Fv|]. lia.
  - intros wr. cbn [in_areas]. unfold wunion, wempty.
    assert (HY : in_area (luma_area (fun _ => ar) (cs_of c) (kpx ms smp src ss) ny ybuf ys h v) wr \/
       in_area (luma_area spec_cols (cs_of c) (kpx ms smp src' ss) ny y' ys h (w - v)) wr <->
       in_area (luma_area (left_cols v ar) (cs_of c) (kpx ms smp src ss) ny ybuf ys h w) wr).
    { apply area_split; try (cbn [s_off y']; lia).
      - intros y j Hyj Hj. rewrite left_lt by lia. reflexivity.
      - intros y j Hyj Hj. rewrite left_ge by lia. unfold src', d. rewrite kpx_from. reflexivity. }
    assert (HU : in_area (u444_area (fun _ => ar) (cs_of c) (kpx ms smp src ss) nu ubuf us h v) wr \/
       in_area (u444_area spec_cols (cs_of c) (kpx ms smp src' ss) nu u' us h (w - v)) wr <->
       in_area (u444_area (left_cols v ar) (cs_of c) (kpx ms smp src ss) nu ubuf us h w) wr).
    { apply area_split; try (cbn [s_off u']; lia).
      - intros y j Hyj Hj. rewrite left_lt by lia. reflexivity.
      - intros y j Hyj Hj. rewrite left_ge by lia. unfold src', d. rewrite kpx_from. reflexivity. }
    assert (HV : in_area (v444_area (fun _ => ar) (cs_of c) (kpx ms smp src ss) nv vbuf vs h v) wr \/
       in_area (v444_area spec_cols (cs_of c) (kpx ms smp src' ss) nv v' vs h (w - v)) wr <->
       in_area (v444_area (left_cols v ar) (cs_of c) (kpx ms smp src ss) nv vbuf vs h w) wr).
    { apply area_split; try (cbn [s_off v']; lia).
      - intros y j Hyj Hj. rewrite left_lt by lia. reflexivity.
      - intros y j Hyj Hj. rewrite left_ge by lia. unfold src', d. rewrite kpx_from. reflexivity. }
    rewrite <- HY, <- HU, <- HV. tauto.
Qed.

Lemma hyb_21_ok T W hW ar pf c vp kv ks :
  0 < W -> W = 2 * hW -> 0 < bytes_per_pixel pf -> vp_ok W vp ->
  v21_ok T W ar pf c kv -> k21_ok T (fun _ => spec_cols) pf c ks ->
  k21_ok T (fun w => left_cols (vp w) ar) pf c (hyb_2_1 vp (bytes_per_pixel pf) kv ks).
Proof.
  intros HW EW Hpf Hvp Hkv Hks ms dl HB w h cw ch ybuf ys uvbuf uvs dst n ds
    Hcw Hch Ew Eh Hy Huv Hd Fy Fuv Fd.
  unfold hyb_2_1. cbv zeta. cbn [fst snd].
  destruct (Hvp w ltac:(lia)) as (k & Ev & Hk & Hkw). set (v := vp w) in *.
  set (d := bytes_per_pixel pf) in *.
  assert (Hv : 0 <= v <= w) by nia.
  set (v2 := hW * k). assert (E2 : v = 2 * v2) by (unfold v2; nia).
  pose proof (fits_cap ms dl ybuf ys h _ ltac:(lia) Fy) as Cy.
  pose proof (fits_cap ms dl uvbuf uvs ch _ ltac:(lia) Fuv) as Cuv.
  pose proof (fits_cap ms dl dst ds h _ ltac:(lia) Fd) as Cd.
  assert (Ud : cap ms dl dst < usz T) by apply Hd.
  assert (Dv : 0 <= v * d <= d * w) by nia.
  set (y' := Slice (s_plane ybuf) (s_off ybuf + v) (s_len ybuf - v)).
  set (uv' := Slice (s_plane uvbuf) (s_off uvbuf + v) (s_len uvbuf - v)).
  set (dst' := Slice (s_plane dst) (s_off dst + v * d) (s_len dst - v * d)).
  eapply runs_iff.
  - eapply runs_bind.
    + apply (runs_if_pos T ms dl v _ (in_areas [out_area pf (nv12_col ms (fun _ => ar) (cs_of c) ys uvs ybuf uvbuf) n dst ds h v]));
        [lia| |none].
      intros Pv. eapply Hkv with (k := k); eauto.
      * eapply fits_sub; [exact Fy|]. lia.
      * eapply fits_sub; [exact Fuv|]. lia.
      * eapply fits_sub; [exact Fd|]. fold d. nia.
    + apply (runs_if_pos T ms dl (w - v) _ (in_areas [out_area pf (nv12_col ms spec_cols (cs_of c) ys uvs y' uv') n dst' ds h (w - v)]));
        [lia| |none].
      intros Pv.
      eapply runs_bind0; [apply exec_umul; lia|].
      eapply runs_bind0; [apply slice_at with (ms := ms) (dl := dl); lia|].
      eapply runs_bind0; [apply slice_at with (ms := ms) (dl := dl); lia|].
      eapply runs_bind0; [apply slice_at with (ms := ms) (dl := dl); lia|].
      fold y' uv' dst'.
      apply (Hks ms dl HB (w - v) h (cw - v2) ch); try lia.
      * apply src_from; auto. lia.
      * apply src_from; auto. lia.
      * apply dst_from; auto. lia.
      * eapply fits_from; [exact Fy|]. lia.
      * eapply fits_from; [exact Fuv|]. lia.
      * eapply fits_from; [exact Fd|]. fold d. lia.
  - intros wr. cbn [in_areas]. unfold wunion, wempty.
    assert (H' : in_area (out_area pf (nv12_col ms (fun _ => ar) (cs_of c) ys uvs ybuf uvbuf) n dst ds h v) wr \/
      in_area (out_area pf (nv12_col ms spec_cols (cs_of c) ys uvs y' uv') n dst' ds h (w - v)) wr <->
      in_area (out_area pf (nv12_col ms (left_cols v ar) (cs_of c) ys uvs ybuf uvbuf) n dst ds h w) wr).
    { apply out_split; auto.
      - intros x y Hyy Hx. unfold nv12_col. rewrite left_lt by lia. reflexivity.
      - intros x y Hyy Hx. unfold nv12_col, y', uv', spec_cols. rewrite left_ge by lia. rewrite !byte_from.
        rewrite E2, half_add. apply f_equal3; f_equal; lia. }
    tauto.
Qed.

Lemma hyb_420r_ok T W hW ar pf c vp kv ks :
  0 < W -> W = 2 * hW -> 0 < bytes_per_pixel pf -> vp_ok W vp ->
  v420r_ok T W ar pf c kv -> k420r_ok T (fun _ => spec_cols) pf c ks ->
  k420r_ok T (fun w => left_cols (vp w) ar) pf c (hyb_3_1 vp 2 (bytes_per_pixel pf) kv ks).
Proof.
  intros HW EW Hpf Hvp Hkv Hks ms dl HB w h cw ch ybuf ys ubuf us vbuf vs dst n ds
    Hcw Hch Ew Eh Hy Hu Hv_ Hd Fy Fu Fv Fd.
  unfold hyb_3_1. cbv zeta.
  destruct (Hvp w ltac:(lia)) as (k & Ev & Hk & Hkw). set (v := vp w) in *.
  set (d := bytes_per_pixel pf) in *.
  assert (Hv : 0 <= v <= w) by nia.
  set (v2 := hW * k). assert (E2 : v = 2 * v2) by (unfold v2; nia).
  assert (E3 : v / 2 = v2) by (rewrite E2, Z.mul_comm; apply Z.div_mul; lia).
  pose proof (fits_cap ms dl ybuf ys h _ ltac:(lia) Fy) as Cy.
  pose proof (fits_cap ms dl ubuf us ch _ ltac:(lia) Fu) as Cu.
  pose proof (fits_cap ms dl vbuf vs ch _ ltac:(lia) Fv) as Cv.
  pose proof (fits_cap ms dl dst ds h _ ltac:(lia) Fd) as Cd.
  assert (Ud : cap ms dl dst < usz T) by apply Hd.
  assert (Dv : 0 <= v * d <= d * w) by nia.
  set (y' := Slice (s_plane ybuf) (s_off ybuf + v) (s_len ybuf - v)).
  set (u' := Slice (s_plane ubuf) (s_off ubuf + v2) (s_len ubuf - v2)).
  set (v' := Slice (s_plane vbuf) (s_off vbuf + v2) (s_len vbuf - v2)).
  set (dst' := Slice (s_plane dst) (s_off dst + v * d) (s_len dst - v * d)).
  eapply runs_iff.
  - eapply runs_bind.
    + apply (runs_if_pos T ms dl v _ (in_areas [out_area pf (i420_col ms (fun _ => ar) (cs_of c) ys us vs ybuf ubuf vbuf) n dst ds h v]));
        [lia| |none].
      intros Pv. eapply Hkv with (k := k); eauto.
      * eapply fits_sub; [exact Fy|]. lia.
      * eapply fits_sub; [exact Fu|]. lia.
      * eapply fits_sub; [exact Fv|]. lia.
      * eapply fits_sub; [exact Fd|]. fold d. nia.
    + apply (runs_if_pos T ms dl (w - v) _ (in_areas [out_area pf (i420_col ms spec_cols (cs_of c) ys us vs y' u' v') n dst' ds h (w - v)]));
        [lia| |none].
      intros Pv. rewrite E3.
      eapply runs_bind0; [apply exec_umul; lia|].
      eapply runs_bind0; [apply slice_at with (ms := ms) (dl := dl); lia|].
      eapply runs_bind0; [apply slice_at with (ms := ms) (dl := dl); lia|].
      eapply runs_bind0; [apply slice_at with (ms := ms) (dl := dl); lia|].
      eapply runs_bind0; [apply slice_at with (ms := ms) (dl := dl); lia|].
      fold y' u' v' dst'.
      apply (Hks ms dl HB (w - v) h (cw - v2) ch); try lia.
      * apply src_from; auto. lia.
      * apply src_from; auto. lia.
      * apply src_from; auto. lia.
      * apply dst_from; auto. lia.
      * eapply fits_from; [exact Fy|]. lia.
      * eapply fits_from; [exact Fu|]. lia.
      * eapply fits_from; [exact Fv|]. lia.
      * eapply fits_from; [exact Fd|]. fold d. lia.
  - intros wr. cbn [in_areas]. unfold wunion, wempty.
    assert (H' : in_area (out_area pf (i420_col ms (fun _ => ar) (cs_of c) ys us vs ybuf ubuf vbuf) n dst ds h v) wr \/
      in_area (out_area pf (i420_col ms spec_cols (cs_of c) ys us vs y' u' v') n dst' ds h (w - v)) wr <->
      in_area (out_area pf (i420_col ms (left_cols v ar) (cs_of c) ys us vs ybuf ubuf vbuf) n dst ds h w) wr).
    { apply out_split; auto.
      - intros x y Hyy Hx. unfold i420_col. rewrite left_lt by lia. reflexivity.
      - intros x y Hyy Hx. unfold i420_col, y', u', v', spec_cols. rewrite left_ge by lia. rewrite !byte_from.
        rewrite E2, half_add. apply f_equal3; f_equal; lia. }
    tauto.
Qed.

Lemma hyb_444r_ok T W ar pf c vp kv ks :
  0 < W -> 0 < bytes_per_pixel pf -> vp_ok W vp ->
  v444r_ok T W ar pf c kv -> k444r_ok T (fun _ => spec_cols) pf c ks ->
  k444r_ok T (fun w => left_cols (vp w) ar) pf c (hyb_3_1 vp 1 (bytes_per_pixel pf) kv ks).
Proof.
  intros HW Hpf Hvp Hkv Hks ms dl HB w h ybuf ys ubuf us vbuf vs dst n ds
    Hw Hh Hy Hu Hv_ Hd Fy Fu Fv Fd.
  unfold hyb_3_1. cbv zeta.
  destruct (Hvp w ltac:(lia)) as (k & Ev & Hk & Hkw). set (v := vp w) in *.
  set (d := bytes_per_pixel pf) in *.
  assert (Hv : 0 <= v <= w) by nia.
  pose proof (fits_cap ms dl ybuf ys h _ ltac:(lia) Fy) as Cy.
  pose proof (fits_cap ms dl ubuf us h _ ltac:(lia) Fu) as Cu.
  pose proof (fits_cap ms dl vbuf vs h _ ltac:(lia) Fv) as Cv.
  pose proof (fits_cap ms dl dst ds h _ ltac:(lia) Fd) as Cd.
  assert (Ud : cap ms dl dst < usz T) by apply Hd.
  assert (Dv : 0 <= v * d <= d * w) by nia.
  set (y' := Slice (s_plane ybuf) (s_off ybuf + v) (s_len ybuf - v)).
  set (u' := Slice (s_plane ubuf) (s_off ubuf + v) (s_len ubuf - v)).
  set (v' := Slice (s_plane vbuf) (s_off vbuf + v) (s_len vbuf - v)).
  set (dst' := Slice (s_plane dst) (s_off dst + v * d) (s_len dst - v * d)).
  eapply runs_iff.
  - eapply runs_bind.
    + apply (runs_if_pos T ms dl v _ (in_areas [out_area pf (i444_col ms (fun _ => ar) (cs_of c) ys us vs ybuf ubuf vbuf) n dst ds h v]));
        [lia| |none].
      intros Pv. eapply Hkv with (k := k); eauto.
      * eapply fits_sub; [exact Fy|]. lia.
      * eapply fits_sub; [exact Fu|]. lia.
      * eapply fits_sub; [exact Fv|]. lia.
      * eapply fits_sub; [exact Fd|]. fold d. nia.
    + apply (runs_if_pos T ms dl (w - v) _ (in_areas [out_area pf (i444_col ms spec_cols (cs_of c) ys us vs y' u' v') n dst' ds h (w - v)]));
        [lia| |none].
      intros Pv. rewrite Z.div_1_r.
      eapply runs_bind0; [apply exec_umul; lia|].
      eapply runs_bind0; [apply slice_at with (ms := ms) (dl := dl); lia|].
      eapply runs_bind0; [apply slice_at with (ms := ms) (dl := dl); lia|].
      eapply runs_bind0; [apply slice_at with (ms := ms) (dl := dl); lia|].
      eapply runs_bind0; [apply slice_at with (ms := ms) (dl := dl); lia|].
      fold y' u' v' dst'.
      apply (Hks ms dl HB (w - v) h); try lia.
      * apply src_from; auto. lia.
      * apply src_from; auto. lia.
      * apply src_from; auto. lia.
      * apply dst_from; auto. lia.
      * eapply fits_from; [exact Fy|]. lia.
      * eapply fits_from; [exact Fu|]. lia.
      * eapply fits_from; [exact Fv|]. lia.
      * eapply fits_from; [exact Fd|]. fold d. lia.
  - intros wr. cbn [in_areas]. unfold wunion, wempty.
    assert (H' : in_area (out_area pf (i444_col ms (fun _ => ar) (cs_of c) ys us vs ybuf ubuf vbuf) n dst ds h v) wr \/
      in_area (out_area pf (i444_col ms spec_cols (cs_of c) ys us vs y' u' v') n dst' ds h (w - v)) wr <->
      in_area (out_area pf (i444_col ms (left_cols v ar) (cs_of c) ys us vs ybuf ubuf vbuf) n dst ds h w) wr).
    { apply out_split; auto.
      - intros x y Hyy Hx. unfold i444_col. rewrite left_lt by lia. reflexivity.
      - intros x y Hyy Hx. unfold i444_col, y', u', v', spec_cols. rewrite left_ge by lia. rewrite !byte_from.
        apply f_equal3; f_equal; lia. }
    tauto.
Qed.

Lemma hyb_11_ok T W t spf dpf vp kv ks :
  0 < W -> 0 < bytes_per_pixel spf -> 0 < bytes_per_pixel dpf -> vp_ok W vp ->
  v11_ok T W spf dpf kv -> k11_ok T t spf dpf ks -> (forall w, -1 <= t w <= 0) ->
  k11_ok T (fun w => if vp w =? w then 0 else t (w - vp w)) spf dpf (hyb_1_1 vp (bytes_per_pixel spf) (bytes_per_pixel dpf) kv ks).
Proof.
  intros HW Ps Pd Hvp Hkv Hks Ht ms dl HB w h src ss dst n ds Hw Hh U2 Hs Hd Hss Hds Os Od Fs Fd.
  unfold hyb_1_1. cbv zeta.
  destruct (Hvp w ltac:(lia)) as (k & Ev & Hk & Hkw). set (v := vp w) in *. cbv beta in Fs. fold v in Fs.
  set (sd := bytes_per_pixel spf) in *. set (d := bytes_per_pixel dpf) in *.
  assert (Hv : 0 <= v <= w) by nia.
  pose proof (fits_cap ms dl src ss h _ ltac:(lia) Fs) as Cs. pose proof (Ht (w - v)) as Htv.
  pose proof (fits_cap ms dl dst ds h _ ltac:(lia) Fd) as Cd.
  assert (Us : cap ms dl src < usz T) by apply Hs. assert (Ud : cap ms dl dst < usz T) by apply Hd.
  assert (Dv : 0 <= v * d <= d * w) by nia. assert (Sv : 0 <= v * sd <= sd * w) by nia.
  assert (Dr : 0 <= d * (w - v) <= d * w) by nia. assert (Sr : 0 <= sd * (w - v) <= sd * w) by nia.
  set (src' := Slice (s_plane src) (s_off src + v * sd) (s_len src - v * sd)).
  set (dst' := Slice (s_plane dst) (s_off dst + v * d) (s_len dst - v * d)).
  eapply runs_iff.
  - eapply runs_bind.
    + apply (runs_if_pos T ms dl v _ (in_areas [out_area dpf (pcol ms spf src ss) n dst ds h v])); [lia| |none].
      intros Pv. assert (Pk : 0 < k) by nia.
      eapply Hkv with (q := k); eauto; fold sd d; try lia.
      * eapply fits_sub; [exact Fs|]. destruct (Z.eqb_spec v w); nia.
      * eapply fits_sub; [exact Fd|]. lia.
    + apply (runs_if_pos T ms dl (w - v) _ (in_areas [out_area dpf (pcol ms spf src' ss) n dst' ds h (w - v)])); [lia| |none].
      intros Pv. assert (v * sd + sd <= sd * w) by nia. replace (v =? w) with false in * by lia.
      eapply runs_bind0; [apply exec_umul; lia|].
      eapply runs_bind0; [apply exec_umul; lia|].
      eapply runs_bind0; [apply slice_at with (ms := ms) (dl := dl); lia|].
      eapply runs_bind0; [apply slice_at with (ms := ms) (dl := dl); lia|].
      fold src' dst'.
      apply (Hks ms dl HB (w - v) h); fold sd d; try lia.
      * apply src_from; auto. lia.
      * apply dst_from; auto. lia.
      * eapply fits_from; [exact Fs|]. lia.
      * eapply fits_from; [exact Fd|]. lia.
  - intros wr. cbn [in_areas]. unfold wunion, wempty.
    assert (H' : in_area (out_area dpf (pcol ms spf src ss) n dst ds h v) wr \/
      in_area (out_area dpf (pcol ms spf src' ss) n dst' ds h (w - v)) wr <->
      in_area (out_area dpf (pcol ms spf src ss) n dst ds h w) wr).
    { apply out_split; auto.
      intros x y Hyy Hx. unfold pcol, src'. destruct (component_offsets spf) as [[o1 o2] o3].
      rewrite !byte_from. fold sd. apply f_equal2; [apply f_equal2|]; f_equal; lia. }
    tauto.
Qed.
