(** The scalar YCbCr to RGB kernels write exactly the specified pixels. *)
From Coq Require Import ZArith List Bool Lia ZifyBool ZifyNat.
Import ListNotations.
From Verif Require Import Base Exec Area Fmt Common Scalar Spec PixelFacts KernelBase ForwardProofs.
Open Scope Z_scope.

(** A packed destination image whose pixel (x, y) has colour [col x y]. *)
Definition out_area (pf : pixel_format) (col : Z -> Z -> rgb) n (s : slice) stride h w : area :=
  Area n (s_off s) stride h (bytes_per_pixel pf * w)
       (fun y j => pixel_byte pf (col (j / bytes_per_pixel pf) y) (j mod bytes_per_pixel pf)).

Lemma div_mul_add d k j : 0 <= j < d -> (d * k + j) / d = k.
Proof. intros H. rewrite Z.mul_comm, Z.div_add_l by lia. rewrite Z.div_small by lia. lia. Qed.
Lemma mod_mul_add d k j : 0 <= j < d -> (d * k + j) mod d = j.
Proof. intros H. rewrite Z.mul_comm, Z.add_comm, Z.mod_add by lia. apply Z.mod_small; lia. Qed.

(** One pixel. *)
Definition px_area (pf : pixel_format) (c : rgb) n b : area :=
  Area n b 0 1 (bytes_per_pixel pf) (fun _ j => pixel_byte pf c j).

Lemma out_tile1 pf col n s stride h w y x wr :
  in_area (tile 1 (bytes_per_pixel pf) (out_area pf col n s stride h w) y x) wr <->
  in_area (px_area pf (col x y) n (s_off s + (stride * y + x * bytes_per_pixel pf))) wr.
Proof.
  unfold tile, out_area, px_area; cbn [a_buf a_base a_stride a_rows a_cols a_val].
  rewrite (area_row _ _ stride 0).
  apply area_ext'; try reflexivity; [lia|].
  intros y' j Hy Hj. rewrite div_mul_add, mod_mul_add by lia. do 2 f_equal; lia.
Qed.

Lemma out_tile2 pf col n s stride h w y x wr : 0 < bytes_per_pixel pf ->
  in_area (tile 2 (2 * bytes_per_pixel pf) (out_area pf col n s stride h w) y x) wr <->
  in_area (px_area pf (col (2 * x) (2 * y)) n
            (s_off s + (stride * (2 * y) + 2 * x * bytes_per_pixel pf))) wr \/
  in_area (px_area pf (col (2 * x + 1) (2 * y)) n
            (s_off s + (stride * (2 * y) + (2 * x + 1) * bytes_per_pixel pf))) wr \/
  in_area (px_area pf (col (2 * x) (2 * y + 1)) n
            (s_off s + (stride * (2 * y + 1) + 2 * x * bytes_per_pixel pf))) wr \/
  in_area (px_area pf (col (2 * x + 1) (2 * y + 1)) n
            (s_off s + (stride * (2 * y + 1) + (2 * x + 1) * bytes_per_pixel pf))) wr.
Proof.
  intros Hd.
  unfold tile, out_area, px_area; cbn [a_buf a_base a_stride a_rows a_cols a_val].
  set (d := bytes_per_pixel pf) in *.
  rewrite area_rows2. replace (2 * d) with (d + d) by lia.
  rewrite !area_cols by lia. rewrite or_assoc.
  apply or_iff; [|apply or_iff; [|apply or_iff]]; rewrite (area_row _ _ stride 0);
    (apply area_ext'; try reflexivity; [lia|]); intros y' j Hy Hj.
  - replace ((d + d) * x + j) with (d * (2 * x) + j) by lia.
    rewrite div_mul_add, mod_mul_add by lia. do 2 f_equal; lia.
  - replace ((d + d) * x + (d + j)) with (d * (2 * x + 1) + j) by lia.
    rewrite div_mul_add, mod_mul_add by lia. do 2 f_equal; lia.
  - replace ((d + d) * x + j) with (d * (2 * x) + j) by lia.
    rewrite div_mul_add, mod_mul_add by lia. do 2 f_equal; lia.
  - replace ((d + d) * x + (d + j)) with (d * (2 * x + 1) + j) by lia.
    rewrite div_mul_add, mod_mul_add by lia. do 2 f_equal; lia.
Qed.

Section Bwd.
Variable T : target.
Variable ms : list (list Z).
Variable dl : list nat.
Hypothesis HB : bytes_ok ms.

Notation exec := (exec T ms dl).
Notation runs := (runs T ms dl).
Notation fits := (fits ms dl).
Notation src_ok := (src_ok T ms dl).
Notation dst_ok := (dst_ok T ms dl).

(** The colour of pixel (x, y), from the three planes. *)
Definition nv12_col (A : columns) cs (ys uvs : Z) (ybuf uvbuf : slice) (x y : Z) : rgb :=
  ar_rgb (A x) cs (byte ms ybuf (ys * y + x))
         (byte ms uvbuf (uvs * (y / 2) + 2 * (x / 2)))
         (byte ms uvbuf (uvs * (y / 2) + (2 * (x / 2) + 1))).
Definition i420_col (A : columns) cs (ys us vs : Z) (ybuf ubuf vbuf : slice) (x y : Z) : rgb :=
  ar_rgb (A x) cs (byte ms ybuf (ys * y + x)) (byte ms ubuf (us * (y / 2) + x / 2))
         (byte ms vbuf (vs * (y / 2) + x / 2)).
Definition i444_col (A : columns) cs (ys us vs : Z) (ybuf ubuf vbuf : slice) (x y : Z) : rgb :=
  ar_rgb (A x) cs (byte ms ybuf (ys * y + x)) (byte ms ubuf (us * y + x)) (byte ms vbuf (vs * y + x)).

(** What a pixel writer has to do. *)
Definition px_ok (px : slice -> Z -> Z -> Z -> Z -> Z -> M unit) pf c dst n : Prop :=
  forall o l cb cr, is_byte l -> is_byte cb -> is_byte cr ->
  0 <= o -> o + bytes_per_pixel pf <= cap ms dl dst ->
  let '(sr, sg, sb) := chroma_terms c cb cr in
  runs (px dst o (l * XXYM c / 256) sr sg sb)
    (in_area (px_area pf (ycc_to_rgb (cs_of c) l cb cr) n (s_off dst + o))) tt.

Lemma px4_ok rev c dst n : dst_ok dst n -> px_ok (bwd_pixel4 rev) (out4 rev) c dst n.
Proof.
  intros H o l cb cr Hl Hb Hr Ho Hlen.
  assert (E : bytes_per_pixel (out4 rev) = 4) by (destruct rev; reflexivity).
  unfold px_area. rewrite E in *. apply runs_bwd_pixel4; auto.
Qed.

Lemma px3_ok c dst n : dst_ok dst n -> px_ok bwd_pixel3 Rgb c dst n.
Proof. intros H o l cb cr Hl Hb Hr Ho Hlen. apply runs_bwd_pixel3; auto. Qed.

Lemma runs_bwd_luma_2x2 px pf c ybuf ys dst n ds ch cw x y cb cr col :
  px_ok px pf c dst n -> src_ok ybuf -> dst_ok dst n -> 0 < bytes_per_pixel pf ->
  fits ybuf ys (2 * ch) (2 * cw) -> fits dst ds (2 * ch) (bytes_per_pixel pf * (2 * cw)) ->
  0 <= y < ch -> 0 <= x < cw -> is_byte cb -> is_byte cr ->
  (forall i j, 0 <= i < 2 -> 0 <= j < 2 ->
     col (2 * x + j) (2 * y + i) = ycc_to_rgb (cs_of c) (byte ms ybuf (ys * (2 * y + i) + (2 * x + j))) cb cr) ->
  let '(sr, sg, sb) := chroma_terms c cb cr in
  runs (bwd_luma_2x2 px (bytes_per_pixel pf) c ybuf ys dst ds x y sr sg sb)
    (in_area (tile 2 (2 * bytes_per_pixel pf) (out_area pf col n dst ds (2 * ch) (2 * cw)) y x)) tt.
Proof.
  intros Hpx Hs Hd Hdp Fs Fd Hy Hx Hcb Hcr Hcol.
  assert (Ls : cap ms dl ybuf < usz T) by apply Hs.
  assert (Ld : cap ms dl dst < usz T) by apply Hd.
  replace (2 * cw) with (1 * (2 * cw)) in Fs by lia.
  set (d := bytes_per_pixel pf) in *.
  destruct (wg_fit T ms dl dst ds _ _ d (2 * x) (2 * y) Ld Fd Hdp ltac:(lia) ltac:(lia)) as (E00 & P00 & Q00).
  destruct (wg_fit T ms dl dst ds _ _ d (2 * x + 1) (2 * y) Ld Fd Hdp ltac:(lia) ltac:(lia)) as (E10 & P10 & Q10).
  destruct (wg_fit T ms dl dst ds _ _ d (2 * x) (2 * y + 1) Ld Fd Hdp ltac:(lia) ltac:(lia)) as (E01 & P01 & Q01).
  destruct (wg_fit T ms dl dst ds _ _ d (2 * x + 1) (2 * y + 1) Ld Fd Hdp ltac:(lia) ltac:(lia)) as (E11 & P11 & Q11).
  destruct (wg_fit T ms dl ybuf ys _ _ 1 (2 * x) (2 * y) Ls Fs ltac:(lia) ltac:(lia) ltac:(lia)) as (D0 & R0 & _).
  destruct (wg_fit T ms dl ybuf ys _ _ 1 (2 * x + 1) (2 * y) Ls Fs ltac:(lia) ltac:(lia) ltac:(lia)) as (_ & _ & S0).
  destruct (wg_fit T ms dl ybuf ys _ _ 1 (2 * x) (2 * y + 1) Ls Fs ltac:(lia) ltac:(lia) ltac:(lia)) as (D1 & R1 & _).
  destruct (wg_fit T ms dl ybuf ys _ _ 1 (2 * x + 1) (2 * y + 1) Ls Fs ltac:(lia) ltac:(lia) ltac:(lia)) as (_ & _ & S1).
  destruct (bwd_coef_range c) as (K & _).
  pose proof (byte_range ms HB ybuf (ys * (2 * y) + 2 * x * 1)) as B00.
  pose proof (byte_range ms HB ybuf (ys * (2 * y) + 2 * x * 1 + 1)) as B10.
  pose proof (byte_range ms HB ybuf (ys * (2 * y + 1) + 2 * x * 1)) as B01.
  pose proof (byte_range ms HB ybuf (ys * (2 * y + 1) + 2 * x * 1 + 1)) as B11.
  pose proof (Hpx (ds * (2 * y) + 2 * x * d) _ cb cr B00 Hcb Hcr P00 Q00) as W00.
  pose proof (Hpx (ds * (2 * y) + (2 * x + 1) * d) _ cb cr B10 Hcb Hcr P10 Q10) as W10.
  pose proof (Hpx (ds * (2 * y + 1) + 2 * x * d) _ cb cr B01 Hcb Hcr P01 Q01) as W01.
  pose proof (Hpx (ds * (2 * y + 1) + (2 * x + 1) * d) _ cb cr B11 Hcb Hcr P11 Q11) as W11.
  destruct (chroma_terms c cb cr) as [[sr sg] sb].
  unfold bwd_luma_2x2. eapply runs_iff.
  - eapply runs_bind0; [exact D0|].
    eapply runs_bind0; [apply exec_unpack2; auto; lia|]. cbv beta iota.
    eapply runs_bind0; [apply exec_mulhi; auto|].
    eapply runs_bind0; [exact E00|].
    eapply runs_bind; [exact W00|].
    eapply runs_bind0; [apply exec_mulhi; auto|].
    eapply runs_bind0; [exact E10|].
    eapply runs_bind; [exact W10|].
    eapply runs_bind0; [exact D1|].
    eapply runs_bind0; [apply exec_unpack2; auto; lia|]. cbv beta iota.
    eapply runs_bind0; [apply exec_mulhi; auto|].
    eapply runs_bind0; [exact E01|].
    eapply runs_bind; [exact W01|].
    eapply runs_bind0; [apply exec_mulhi; auto|].
    eapply runs_bind0; [exact E11|].
    exact W11.
  - intros wr. subst d. rewrite out_tile2 by auto. unfold wunion.
    pose proof (Hcol 0 0 ltac:(lia) ltac:(lia)) as C00. rewrite !Z.add_0_r in C00.
    pose proof (Hcol 0 1 ltac:(lia) ltac:(lia)) as C10. rewrite !Z.add_0_r in C10.
    pose proof (Hcol 1 0 ltac:(lia) ltac:(lia)) as C01. rewrite !Z.add_0_r in C01.
    pose proof (Hcol 1 1 ltac:(lia) ltac:(lia)) as C11.
    rewrite C00, C10, C01, C11, !Z.mul_1_r, !Z.add_assoc. tauto.
Qed.

Lemma half_even x j : 0 <= j < 2 -> (2 * x + j) / 2 = x.
Proof. apply div_mul_add. Qed.

Lemma two_div a : 2 * a / 2 = a.
Proof. rewrite Z.mul_comm, Z.div_mul; lia. Qed.

(** Both NV12 kernels. *)
Lemma runs_nv12_loop px pf c w h cw ch ybuf ys uvbuf uvs dst n ds :
  w = 2 * cw -> h = 2 * ch -> 0 < bytes_per_pixel pf ->
  px_ok px pf c dst n -> src_ok ybuf -> src_ok uvbuf -> dst_ok dst n ->
  fits ybuf ys h w -> fits uvbuf uvs ch w -> fits dst ds h (bytes_per_pixel pf * w) ->
  runs (for_ (h / 2) (fun y => for_ (w / 2) (fun x =>
    i <- wg_index x y 2 uvs ;;
    '(cb, cr) <- unpack_ui8x2_i32 uvbuf i ;;
    '(sr, sg, sb) <- bwd_chroma c cb cr ;;
    bwd_luma_2x2 px (bytes_per_pixel pf) c ybuf ys dst ds x y sr sg sb)))
    (in_areas [out_area pf (nv12_col spec_cols (cs_of c) ys uvs ybuf uvbuf) n dst ds h w]) tt.
Proof.
  intros -> -> Hdp Hpx Hy Huv Hd Fy Fuv Fd. rewrite !two_div.
  eapply runs_for2.
  { apply Forall2_cons; [|apply Forall2_nil].
    apply tiled_eq with (th := 2) (tw := 2 * bytes_per_pixel pf);
      unfold out_area; cbn [a_rows a_cols]; lia. }
  intros y x Hy' Hx. cbn [map in_areas].
  destruct (wg_fit T ms dl uvbuf uvs ch cw 2 x y) as (D & P & Q); auto; try lia. { apply Huv. }
  pose proof (byte_range ms HB uvbuf (uvs * y + x * 2)) as Bu.
  pose proof (byte_range ms HB uvbuf (uvs * y + x * 2 + 1)) as Bv.
  eapply runs_iff; [|intros wr; unfold wunion, wempty; split; [intros H; left; exact H | intros [H|[]]; exact H]].
  eapply runs_bind0; [exact D|].
  eapply runs_bind0; [apply exec_unpack2; auto; lia|]. cbv beta iota.
  eapply runs_bind0; [apply exec_bwd_chroma; auto|].
  pose proof (runs_bwd_luma_2x2 px pf c ybuf ys dst n ds ch cw x y _ _
                (nv12_col spec_cols (cs_of c) ys uvs ybuf uvbuf)
                Hpx Hy Hd Hdp Fy Fd Hy' Hx Bu Bv) as W.
  destruct (chroma_terms c (byte ms uvbuf (uvs * y + x * 2)) (byte ms uvbuf (uvs * y + x * 2 + 1)))
    as [[sr sg] sb].
  apply W. intros i j Hi Hj. unfold nv12_col. rewrite !half_even by lia.
  cbn [ar_rgb spec_arith spec_cols]. f_equal; f_equal; lia.
Qed.

Lemma runs_nv12_to_bgra c rev w h cw ch ybuf ys uvbuf uvs dst n ds :
  w = 2 * cw -> h = 2 * ch ->
  src_ok ybuf -> src_ok uvbuf -> dst_ok dst n ->
  fits ybuf ys h w -> fits uvbuf uvs ch w -> fits dst ds h (4 * w) ->
  runs (nv12_to_bgra c rev w h (ys, uvs) (ybuf, uvbuf) ds dst)
    (in_areas [out_area (out4 rev) (nv12_col spec_cols (cs_of c) ys uvs ybuf uvbuf) n dst ds h w]) tt.
Proof.
  intros. assert (E : bytes_per_pixel (out4 rev) = 4) by (destruct rev; reflexivity).
  unfold nv12_to_bgra. rewrite <- E in *.
  apply runs_nv12_loop with cw ch; auto; try lia.
  apply px4_ok; auto.
Qed.

Lemma runs_nv12_to_rgb c w h cw ch ybuf ys uvbuf uvs dst n ds :
  w = 2 * cw -> h = 2 * ch ->
  src_ok ybuf -> src_ok uvbuf -> dst_ok dst n ->
  fits ybuf ys h w -> fits uvbuf uvs ch w -> fits dst ds h (3 * w) ->
  runs (nv12_to_rgb c w h (ys, uvs) (ybuf, uvbuf) ds dst)
    (in_areas [out_area Rgb (nv12_col spec_cols (cs_of c) ys uvs ybuf uvbuf) n dst ds h w]) tt.
Proof.
  intros. unfold nv12_to_rgb. change 3 with (bytes_per_pixel Rgb) in *.
  apply runs_nv12_loop with cw ch; auto; try (cbn; lia).
  apply px3_ok; auto.
Qed.

Lemma runs_i420_to_bgra c rev w h cw ch ybuf ys ubuf us vbuf vs dst n ds :
  w = 2 * cw -> h = 2 * ch ->
  src_ok ybuf -> src_ok ubuf -> src_ok vbuf -> dst_ok dst n ->
  fits ybuf ys h w -> fits ubuf us ch cw -> fits vbuf vs ch cw -> fits dst ds h (4 * w) ->
  runs (i420_to_bgra c rev w h (ys, us, vs) (ybuf, ubuf, vbuf) ds dst)
    (in_areas [out_area (out4 rev) (i420_col spec_cols (cs_of c) ys us vs ybuf ubuf vbuf) n dst ds h w]) tt.
Proof.
  intros -> -> Hy Hu Hv Hd Fy Fu Fv Fd. unfold i420_to_bgra. rewrite !two_div.
  assert (E : bytes_per_pixel (out4 rev) = 4) by (destruct rev; reflexivity).
  rewrite <- E in *.
  eapply runs_for2.
  { apply Forall2_cons; [|apply Forall2_nil].
    apply tiled_eq with (th := 2) (tw := 2 * bytes_per_pixel (out4 rev));
      unfold out_area; cbn [a_rows a_cols]; lia. }
  intros y x Hy' Hx. cbn [map in_areas].
  replace cw with (1 * cw) in Fu, Fv by lia.
  destruct (wg_fit T ms dl ubuf us ch cw 1 x y) as (Du & Pu & Qu); auto; try lia. { apply Hu. }
  destruct (wg_fit T ms dl vbuf vs ch cw 1 x y) as (Dv & Pv & Qv); auto; try lia. { apply Hv. }
  pose proof (byte_range ms HB ubuf (us * y + x * 1)) as Bu.
  pose proof (byte_range ms HB vbuf (vs * y + x * 1)) as Bv.
  eapply runs_iff; [|intros wr; unfold wunion, wempty; split; [intros H; left; exact H | intros [H|[]]; exact H]].
  destruct Hu as (Hu1 & Hu2 & _). destruct Hv as (Hv1 & Hv2 & _).
  eapply runs_bind0; [exact Du|].
  eapply runs_bind0; [apply exec_ld; auto; lia|].
  eapply runs_bind0; [exact Dv|].
  eapply runs_bind0; [apply exec_ld; auto; lia|].
  eapply runs_bind0; [apply exec_bwd_chroma; auto|].
  pose proof (runs_bwd_luma_2x2 (bwd_pixel4 rev) (out4 rev) c ybuf ys dst n ds ch cw x y _ _
                (i420_col spec_cols (cs_of c) ys us vs ybuf ubuf vbuf)
                (px4_ok rev c dst n Hd) Hy Hd ltac:(lia) Fy Fd Hy' Hx Bu Bv) as W.
  destruct (chroma_terms c (byte ms ubuf (us * y + x * 1)) (byte ms vbuf (vs * y + x * 1)))
    as [[sr sg] sb].
  apply W. intros i j Hi Hj. unfold i420_col. rewrite !half_even by lia.
  cbn [ar_rgb spec_arith spec_cols]. f_equal; f_equal; lia.
Qed.

Lemma runs_i444_to_bgra c rev w h ybuf ys ubuf us vbuf vs dst n ds :
  src_ok ybuf -> src_ok ubuf -> src_ok vbuf -> dst_ok dst n ->
  fits ybuf ys h w -> fits ubuf us h w -> fits vbuf vs h w -> fits dst ds h (4 * w) ->
  runs (i444_to_bgra c rev w h (ys, us, vs) (ybuf, ubuf, vbuf) ds dst)
    (in_areas [out_area (out4 rev) (i444_col spec_cols (cs_of c) ys us vs ybuf ubuf vbuf) n dst ds h w]) tt.
Proof.
  intros Hy Hu Hv Hd Fy Fu Fv Fd. unfold i444_to_bgra.
  assert (E : bytes_per_pixel (out4 rev) = 4) by (destruct rev; reflexivity).
  eapply runs_for2.
  { apply Forall2_cons; [|apply Forall2_nil].
    apply tiled_eq with (th := 1) (tw := bytes_per_pixel (out4 rev));
      unfold out_area; cbn [a_rows a_cols]; lia. }
  intros y x Hy' Hx. cbn [map in_areas].
  replace w with (1 * w) in Fy, Fu, Fv by lia.
  destruct (wg_fit T ms dl ybuf ys h w 1 x y) as (Dy & Py & Qy); auto; try lia. { apply Hy. }
  destruct (wg_fit T ms dl ubuf us h w 1 x y) as (Du & Pu & Qu); auto; try lia. { apply Hu. }
  destruct (wg_fit T ms dl vbuf vs h w 1 x y) as (Dv & Pv & Qv); auto; try lia. { apply Hv. }
  destruct (wg_fit T ms dl dst ds h w 4 x y) as (Dd & Pd & Qd); auto; try lia. { apply Hd. }
  pose proof (byte_range ms HB ybuf (ys * y + x * 1)) as By.
  pose proof (byte_range ms HB ubuf (us * y + x * 1)) as Bu.
  pose proof (byte_range ms HB vbuf (vs * y + x * 1)) as Bv.
  destruct Hy as (Hy1 & Hy2 & _). destruct Hu as (Hu1 & Hu2 & _). destruct Hv as (Hv1 & Hv2 & _).
  destruct (bwd_coef_range c) as (K & _).
  pose proof (px4_ok rev c dst n Hd (ds * y + x * 4) _ _ _ By Bu Bv Pd ltac:(lia)) as W.
  eapply runs_iff; [|intros wr; unfold wunion, wempty; split;
                     [intros H; left; apply out_tile1; exact H
                     |intros [H|[]]; rewrite out_tile1 in H; exact H]].
  eapply runs_bind0; [exact Dy|].
  eapply runs_bind0; [apply exec_ld; auto; lia|].
  eapply runs_bind0; [exact Du|].
  eapply runs_bind0; [apply exec_ld; auto; lia|].
  eapply runs_bind0; [exact Dv|].
  eapply runs_bind0; [apply exec_ld; auto; lia|].
  eapply runs_bind0; [apply exec_bwd_chroma; auto|].
  destruct (chroma_terms c (byte ms ubuf (us * y + x * 1)) (byte ms vbuf (vs * y + x * 1)))
    as [[sr sg] sb].
  eapply runs_bind0; [apply exec_mulhi; auto|].
  eapply runs_bind0; [exact Dd|].
  unfold i444_col. rewrite !Z.mul_1_r in *. rewrite E. exact W.
Qed.

End Bwd.
