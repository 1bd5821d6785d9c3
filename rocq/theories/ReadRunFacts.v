(** Which bytes a call reads. *)
From Coq Require Import ZArith List Bool Lia ZifyBool ZifyNat.
Import ListNotations.
From Verif Require Import Base Fmt Dispatch Common Scalar Wrappers Simd Vector CpuInfo Lib Sets Spec SetSpec ApiSpec Api LibFacts PropFacts
  PadFacts ExactFacts AcceptFacts Trace TraceSpec TraceRunFacts ReadSpec ReadFacts ReadSetFacts.
From Verif Require Sse2 Avx2 Neon.
Open Scope Z_scope.
Ltac Zify.zify_post_hook ::= Z.div_mod_to_equations.

Section Conv.
Variable T : target.

(** ** All converters *)
Lemma div_lower n (P : Z -> Prop) : (forall w, 0 <= w -> lower_multiple_of_pot w n = n * (w / n)) -> 0 < n -> (forall q, P (n * q)) ->
  divides_width (fun w => lower_multiple_of_pot w n) P.
Proof.
  intros E N HP w W. rewrite E by lia. pose proof (Z.div_pos w n). pose proof (Z.mul_div_le w n). split; [nia|apply HP].
Qed.
Lemma div_fwd n dp : (forall w, 0 <= w -> lower_multiple_of_pot w n = n * (w / n)) -> 0 < n -> divides_width (fwd_vector_part n dp) any.
Proof.
  intros E N w W. unfold fwd_vector_part. destruct (dp =? 3) eqn:D.
  - assert (dp = 3) as -> by lia. pose proof (Z.div_pos w (3 * n)). pose proof (Z.mul_div_le w (3 * n)). split; [nia|exact I].
  - apply (div_lower n any E N); [intros; exact I|exact W].
Qed.
Definition source_set (spf : pixel_format) (o e l w h : Z) (ss : arr Z) : plane -> Z -> Prop :=
  match spf with
  | Nv12 => nv12_set l w h ss
  | I420 => planes_set 2 w h ss
  | I444 | I422 => planes_set 1 w h ss
  | _ => packed_set (bytes_per_pixel spf) o e w h ss
  end.
Definition reads_set (set : instruction_set) (spf dpf : pixel_format) (c : conv) := forall w h l ss sb l' ds db, plain sb -> 0 <= w ->
  sees T (source_set spf (over_read set spf dpf w) (spill set spf dpf w (st ss 0 (bytes_per_pixel spf * w))) l w h ss) (converters set c w h l ss sb l' ds db) any.

Lemma spill_x86 k : see_1_1 T any 3 rgb_spill k -> see_1_1 T any 3 (spill X86 Rgb Bgra) k.
Proof.
  intros H w h ss s ds d P W. specialize (H w h ss s ds d P W). unfold spill. cbv zeta iota. replace (w =? 0) with false by lia. exact H.
Qed.
Ltac kernel :=
  lazymatch goal with
  | |- see_1_1 _ _ _ _ bgr_to_rgb => exact (see_bgr_rgb T)
  | |- see_1_1 _ _ _ _ bgra_to_rgb => exact (see_bgra_rgb T)
  | |- see_1_1 _ _ _ _ rgb_to_bgra => exact (see_rgb_bgra T)
  | |- see_1_2 _ _ _ (rgb_to_nv12 ?s _ _) => exact (see_rgb_nv12 T s _)
  | |- see_1_3 _ _ _ (rgb_to_i420 ?s _ _) => exact (see_rgb_i420 T s _)
  | |- see_1_3 _ _ _ (rgb_to_i444 ?s _ _) => exact (see_rgb_i444 T s _)
  | |- see_2_1 _ (nv12_to_bgra _ _) => exact (see_nv12_bgra T _ _)
  | |- see_2_1 _ (nv12_to_rgb _) => exact (see_nv12_rgb T _)
  | |- see_3_1 _ _ (i420_to_bgra _ _) => exact (see_i420_bgra T _ _)
  | |- see_3_1 _ _ (i444_to_bgra _ _) => exact (see_i444_bgra T _ _)
  | |- see_1_2 _ _ _ (Sse2.rgb_to_nv12_sse2 ?s _ _) => exact (see_sse2_nv12 T s _)
  | |- see_1_3 _ _ _ (Sse2.rgb_to_i420_sse2 ?s _ _) => exact (see_sse2_i420 T s _)
  | |- see_1_3 _ _ _ (Sse2.rgb_to_i444_sse2 ?s _ _) => exact (see_sse2_i444 T s _)
  | |- see_2_1 _ (Sse2.nv12_to_bgra_sse2 _ _) => exact (see_sse2_nv12_bgra T _ _)
  | |- see_3_1 _ _ (Sse2.i420_to_bgra_sse2 _ _) => exact (see_sse2_i420_bgra T _ _)
  | |- see_3_1 _ _ (Sse2.i444_to_bgra_sse2 _ _) => exact (see_sse2_i444_bgra T _ _)
  | |- see_1_1 _ _ _ _ Sse2.rgb_to_bgra_sse2 => exact (see_sse2_rgb_bgra T)
  | |- see_1_2 _ _ _ (Avx2.rgb_to_nv12_avx2 ?s _ _) => exact (see_avx2_nv12 T s _)
  | |- see_1_3 _ _ _ (Avx2.rgb_to_i420_avx2 ?s _ _) => exact (see_avx2_i420 T s _)
  | |- see_1_3 _ _ _ (Avx2.rgb_to_i444_avx2 ?s _ _) => exact (see_avx2_i444 T s _)
  | |- see_2_1 _ (Avx2.nv12_to_rgb_avx2 _) => exact (see_avx2_nv12_rgb T _)
  | |- see_2_1 _ (Avx2.nv12_to_bgra_avx2 _ _) => exact (see_avx2_nv12_bgra T _ _)
  | |- see_3_1 _ _ (Avx2.i420_to_bgra_avx2 _ _) => exact (see_avx2_i420_bgra T _ _)
  | |- see_3_1 _ _ (Avx2.i444_to_bgra_avx2 _ _) => exact (see_avx2_i444_bgra T _ _)
  | |- see_1_1 _ _ _ _ Avx2.rgb_to_bgra_avx2 => exact (see_avx2_rgb_bgra T)
  | |- see_1_1 _ _ _ _ Avx2.bgr_to_rgb_avx2 => exact (see_avx2_bgr_rgb T)
  | |- see_1_1 _ _ _ _ Avx2.bgra_to_rgb_avx2 => exact (see_avx2_bgra_rgb T)
  | |- see_1_2 _ _ _ (Neon.rgb_to_nv12_neon ?s _ _) => exact (see_neon_nv12 T s _)
  | |- see_1_3 _ _ _ (Neon.rgb_to_i420_neon ?s _ _) => exact (see_neon_i420 T s _)
  | |- see_1_3 _ _ _ (Neon.rgb_to_i444_neon ?s _ _) => exact (see_neon_i444 T s _)
  | |- see_1_1 _ _ _ _ (Neon.reorder_neon ?m ?o) => exact (see_neon_reorder T m o)
  end.
Ltac divided := first [apply div_fwd; [first [apply lower_4|apply lower_8]|lia]
  | apply div_lower; [first [exact lower_8|exact lower_16|exact lower_32]|lia|intros q; first [exact I|clear; rewrite Z.mul_comm; apply Z.mod_mul; lia]]].
Lemma over_nonneg set spf dpf w : 0 <= over_read set spf dpf w.
Proof. unfold over_read. cbv zeta. destruct set, spf, (is_rgb dpf); try lia; destruct (_ <=? _); lia. Qed.
Ltac slack := let v := fresh in intros v ? ?; unfold none, beyond, over_read, fwd_vector_part in *; cbn [sampler_of is_rgb] in *; cbv zeta iota in *;
  change (3 =? 3) with true in *; change (4 =? 3) with false in *; cbv iota in *; rewrite ?lower_4, ?lower_8 in * by lia;
  try (destruct (_ <=? _) eqn:?); lia.
Ltac nonneg := intros; first [apply over_nonneg|apply Z.le_refl].
Lemma spill_rest n v ss : n = 16 \/ n = 32 -> 0 < v -> n * (v / n) < v ->
  rgb_spill (v - n * (v / n)) ss <= (if v mod n =? 0 then 0 else Z.min (if (v mod n) mod 8 =? 0 then 2 else 1) (ss - 3 * (v mod n))).
Proof.
  intros N V L. replace (v - n * (v / n)) with (v mod n) by (destruct N as [-> | ->]; lia).
  replace (v mod n =? 0) with false by (destruct N as [-> | ->]; lia). apply Z.le_refl.
Qed.
Ltac spilled := let v := fresh in let ss := fresh in intros v ss ? ?; cbv beta in *; rewrite ?lower_16, ?lower_32 in * by lia;
  first [apply Z.le_refl | apply (spill_rest 16); auto | apply (spill_rest 32); auto].
Ltac hybrids sl :=
  lazymatch goal with
  | |- see_1_1 _ _ _ _ (hyb_1_1 _ _ _ _ _) => eapply see_hyb_1_1; [lia| |kernel|kernel|spilled]; divided
  | |- see_1_2 _ _ _ (hyb_1_2 _ _ _ _) => eapply (see_hyb_1_2 _ _ _ _ sl); [lia|divided|kernel|kernel|slack|nonneg]
  | |- see_1_3 _ _ _ (hyb_1_3 _ _ _ _ _) => eapply (see_hyb_1_3 _ _ _ _ _ sl); [lia|divided|kernel|kernel|slack|nonneg]
  | |- see_2_1 _ (hyb_2_1 _ _ _ _) => apply see_hyb_2_1; [divided|kernel|kernel]
  | |- see_3_1 _ _ (hyb_3_1 _ _ _ _ _) => apply see_hyb_3_1; [auto|divided|kernel|kernel]
  | |- see_1_1 _ _ _ (spill X86 Rgb Bgra) _ => apply spill_x86; kernel
  | |- _ => kernel
  end.
Ltac fold_over set spf dpf :=
  unfold reads_set; intros w h l ss sb l' ds db P W;
  cbn [source_set converters x86_converter sse2_converter avx2_converter neon_converter pf_depth bytes_per_pixel conv_of is_rgb].
Ltac converter set spf dpf :=
  fold_over set spf dpf;
  lazymatch goal with
  | |- sees _ (nv12_set _ _ _ _) _ _ => apply see_nv12_rgb_w; [|assumption|assumption]
  | |- sees _ (planes_set _ _ _ _) _ _ => apply see_i4xx_rgb_w; [|assumption|assumption]
  | |- sees _ (packed_set _ (over_read ?set _ Bgra _) _ _ _ _) _ _ => apply (see_rgb_rgb_w T _ _ (spill set spf dpf)); [|assumption|assumption]
  | |- sees _ (packed_set _ (over_read ?set _ Rgb _) _ _ _ _) _ _ => apply (see_rgb_rgb_w T _ _ (spill set spf dpf)); [|assumption|assumption]
  | |- sees _ (packed_set _ (over_read ?set _ Nv12 _) _ _ _ _) _ _ => apply (see_rgb_nv12_w T _ (over_read set spf dpf)); [|assumption|assumption]
  | |- sees _ (packed_set _ (over_read ?set _ _ _) _ _ _ _) _ _ => apply (see_rgb_i4xx_w T _ _ (over_read set spf dpf)); [|assumption|assumption]
  end;
  cbn [pf_depth]; change (4 =? 4) with true; change (3 =? 4) with false; change (3 =? 3) with true; change (4 =? 3) with false; cbv iota;
  unfold Neon.bgr_to_rgb_neon, Neon.bgra_to_rgb_neon, Neon.rgb_to_bgra_neon;
  change Sse2.RGB_TO_YUV_WAVES with 4; change Sse2.YUV_TO_RGB_WAVES with 16; change Avx2.RGB_TO_YUV_WAVES with 8;
  change Avx2.YUV_TO_RGB_WAVES with 32; change Neon.RGB_TO_YUV_WAVES with 8; change (16 / 2) with 8; change (32 / 2) with 16;
  change Sse2.LANE_COUNT with 16; change Avx2.LANE_COUNT with 32; change Neon.LANE_COUNT with 16;
  hybrids (over_read set spf dpf).
Lemma reads_x86 spf dpf scs dcs : supported spf dpf = true -> reads_set X86 spf dpf (conv_of spf dpf scs dcs).
Proof. intros S. destruct spf, dpf; try discriminate S; lazymatch goal with |- reads_set ?set ?s ?d _ => converter set s d end. Qed.
Lemma reads_sse2 spf dpf scs dcs : supported spf dpf = true -> reads_set CpuInfo.Sse2 spf dpf (conv_of spf dpf scs dcs).
Proof. intros S. destruct spf, dpf; try discriminate S; lazymatch goal with |- reads_set ?set ?s ?d _ => converter set s d end. Qed.
Lemma reads_avx2 spf dpf scs dcs : supported spf dpf = true -> reads_set CpuInfo.Avx2 spf dpf (conv_of spf dpf scs dcs).
Proof. intros S. destruct spf, dpf; try discriminate S; lazymatch goal with |- reads_set ?set ?s ?d _ => converter set s d end. Qed.
Lemma reads_neon spf dpf scs dcs : supported spf dpf = true -> reads_set CpuInfo.Neon spf dpf (conv_of spf dpf scs dcs).
Proof. intros S. destruct spf, dpf; try discriminate S; lazymatch goal with |- reads_set ?set ?s ?d _ => converter set s d end. Qed.
Lemma reads_all set spf dpf scs dcs : supported spf dpf = true -> reads_set set spf dpf (conv_of spf dpf scs dcs).
Proof. destruct set; [apply reads_x86|apply reads_sse2|apply reads_avx2|apply reads_neon]. Qed.

(** ** Images *)
Definition strides_of (im : image) (ss : arr Z) := forall i row, (i < 4)%nat -> st ss (Z.of_nat i) row = eff_stride (i_strides im) i row.
Definition source_image (set : instruction_set) (src dst : image) (w h : Z) (p : plane) (a : Z) : Prop :=
  exists n, p = Src n /\ readable set src dst w h n a.
Lemma near_plane (g : geom) last more im w h n s rows row p a : In g (image_planes im w h) -> 0 <= last -> n = g_buf g ->
  s = g_stride g -> rows <= g_rows g -> row <= g_row g + last \/ (rows < g_rows g /\ row <= g_row g + more) ->
  band (at_ n (g_base g)) s rows row p a -> exists n, p = Src n /\ near_image last more im w h n a.
Proof.
  intros G L -> -> R W (E & y & j & Y & J & A). cbn [at_ s_plane s_off] in *. exists (g_buf g). split; [exact E|].
  exists g, y, j. split; [exact G|]. split; [reflexivity|]. split; [lia|]. split; [|exact A].
  destruct W as [W|[W W']]; [lia|]. destruct (y + 1 <? g_rows g) eqn:Y'; lia.
Qed.
Lemma set_image set src dst w h ss p a : valid_num_planes (i_pf src) (i_planes src) -> strides_of src ss -> supported (i_pf src) (i_pf dst) = true ->
  source_set (i_pf src) (over_read set (i_pf src) (i_pf dst) w) (spill set (i_pf src) (i_pf dst) w (st ss 0 (bytes_per_pixel (i_pf src) * w))) (u32 (i_planes src - 1)) w h ss p a ->
  source_image set src dst w h p a.
Proof.
  intros V S Su. pose proof (over_nonneg set (i_pf src) (i_pf dst) w) as N. unfold source_image, readable.
  rewrite <- (S 0%nat _ ltac:(lia)). change (Z.of_nat 0) with 0.
  set (o := over_read _ _ _ _) in *. set (e := spill _ _ _ _ _) in *. clearbody o.
  pose proof (fun row => S 0%nat row ltac:(lia)) as S0. pose proof (fun row => S 1%nat row ltac:(lia)) as S1. pose proof (fun row => S 2%nat row ltac:(lia)) as S2.
  cbn [Z.of_nat Pos.of_succ_nat Pos.succ] in S0, S1, S2. clear S.
  assert (P : forall g n s rows row, In g (image_planes src w h) -> n = g_buf g ->
    s = g_stride g -> rows <= g_rows g -> row <= g_row g + o \/ (rows < g_rows g /\ row <= g_row g + e) ->
    band (at_ n (g_base g)) s rows row p a -> exists n, p = Src n /\ near_image o e src w h n a).
  { intros g n s rows row G. apply (near_plane g); [exact G|exact N]. }
  unfold image_planes, planes in P. clearbody e.
  unfold valid_num_planes in V. destruct (i_pf src) eqn:Pf; try (destruct (i_pf dst); discriminate Su); clear Su;
    cbn [source_set bytes_per_pixel] in *; unfold packed_set, planes_set, nv12_set; rewrite ?S0, ?S1, ?S2, ?Z.div_1_r.
  all: try (intros [B|B]; (eapply P; [left; reflexivity|reflexivity|reflexivity| | |exact B]; cbn [g_rows g_row]; lia)).
  1,2: intros [B|[B|B]];
    [eapply P; [left; reflexivity|reflexivity|reflexivity| | |exact B]; cbn [g_rows g_row]; lia
    |eapply P; [right; left; reflexivity|reflexivity|reflexivity| | |exact B]; cbn [g_rows g_row]; lia
    |eapply P; [right; right; left; reflexivity|reflexivity|reflexivity| | |exact B]; cbn [g_rows g_row]; lia].
  destruct V as [E|E]; rewrite E in *.
  - change (u32 (1 - 1)) with 0. change (0 =? 0) with true. change (1 =? 1) with true in P. cbv iota zeta in *.
    intros [B|B].
    + eapply P; [left; reflexivity|reflexivity|reflexivity| | |exact B]; cbn [g_rows g_row]; lia.
    + eapply P; [right; left; reflexivity|reflexivity|reflexivity| | |exact B]; cbn [g_rows g_row]; lia.
  - change (u32 (2 - 1)) with 1. change (1 =? 0) with false. change (2 =? 1) with false in P. cbv iota zeta in *. rewrite S1.
    intros [B|B].
    + eapply P; [left; reflexivity|reflexivity|reflexivity| | |exact B]; cbn [g_rows g_row]; lia.
    + eapply P; [right; left; reflexivity|reflexivity|reflexivity| | |exact B]; cbn [g_rows g_row]; lia.
Qed.

(** ** Calls *)
Lemma sees_index {A} S (l : list A) i : sees T S (index l i) (fun a => nth_error l (Z.to_nat i) = Some a).
Proof. unfold index. destruct (_ && _); [|exact I]. destruct (nth_error _ _) eqn:E; [apply sees_ret; reflexivity|exact I]. Qed.
Lemma sees_index_any {A} S (l : list A) i : sees T S (index l i) any.
Proof. eapply sees_mono; [intros p a B; exact B| |apply sees_index]. intros; exact I. Qed.
Lemma sees_compatible S a b c d : sees T S (is_compatible a b c d) any.
Proof. unfold is_compatible. apply sees_bind; [apply sees_index_any|intros ?]. apply sees_ret. exact I. Qed.
Lemma sees_planes S a b : sees T S (are_planes_compatible a b) any.
Proof. unfold are_planes_compatible. cbv zeta. apply sees_bind; [apply sees_index_any|intros ?]. apply sees_ret. exact I. Qed.
Lemma sees_convert set w h src dst ss sb ds db : 0 <= w -> valid_num_planes (i_pf src) (i_planes src) -> strides_of src (strides_or_default ss) -> plain sb ->
  sees T (source_image set src dst w h) (convert_image (converters set) w h (format_of src) ss sb (format_of dst) ds db) any.
Proof.
  intros W V S P. unfold convert_image, format_of, image_format_of. cbn [f_pf f_cs f_planes]. cbv zeta. rewrite !modes_ok.
  destruct (colors_b (i_pf src) (i_cs src)) eqn:Cs; cbn [negb orb]; [|exact I].
  destruct (colors_b (i_pf dst) (i_cs dst)) eqn:Cd; cbn [negb]; [|exact I].
  apply sees_bind; [apply sees_compatible|intros []; cbn [negb]; [|exact I]].
  apply sees_bind; [apply sees_compatible|intros []; cbn [negb]; [|exact I]].
  destruct (_ <=? _); [exact I|].
  pose proof (entry_all (i_pf src) (i_cs src) (i_pf dst) (i_cs dst)) as E.
  unfold entry_ok in E. rewrite Cs, Cd in E. cbn [andb negb orb] in E.
  fold (img_index (i_pf src) (i_cs src)) (img_index (i_pf dst) (i_cs dst)).
  set (i := get_index (img_index (i_pf src) (i_cs src)) (img_index (i_pf dst) (i_cs dst))) in *. cbv zeta in E.
  eapply sees_then; [apply sees_index|].
  intros r Er. cbv beta in Er. rewrite Er in E. destruct r as [c|]; [|exact I].
  rewrite !andb_true_iff in E. destruct E as (((_ & _) & E3) & E4). apply conv_eqb_ok in E4. subst c.
  apply sees_bind; [|intros ?; exact I].
  eapply sees_sub; [|apply reads_all; [exact E3|exact P|exact W]].
  intros p a. apply set_image; [exact V|exact S|exact E3].
Qed.
Lemma sees_c_planes S ptrs n : forall i l, plain (Arr 4 l) -> length l = i ->
  sees T S (c_planes Src ptrs i n l) (fun r => match r with Some l => plain (Arr 4 l) | None => True end).
Proof.
  induction n as [|n IH]; intros i l P L; cbn [c_planes]; [apply sees_ret; exact P|].
  destruct (nth_error ptrs i) as [[|]|]; [|exact I|exact I].
  cbn [sees]. split; [|apply IH].
  - intros T' [U _]. unfold isize_max. rewrite U. reflexivity.
  - intros k s. cbn [adata]. destruct (Nat.lt_ge_cases k (length l)) as [K|K].
    + rewrite nth_error_app1 by exact K. apply P.
    + rewrite nth_error_app2 by exact K. subst i. destruct (k - length l)%nat eqn:D; cbn [nth_error].
      * intros Q. injection Q as <-. cbn [s_plane s_off]. split; [f_equal; lia|reflexivity].
      * destruct n0; discriminate.
  - rewrite app_length. cbn [length]. lia.
Qed.
Lemma sees_c_dst S ptrs n : forall i l, sees T S (c_planes Dst ptrs i n l) any.
Proof.
  induction n as [|n IH]; intros i l; cbn [c_planes]; [exact I|].
  destruct (nth_error ptrs i) as [[|]|]; [|exact I|exact I].
  cbn [sees]. split; [|apply IH]. intros T' [U _]. unfold isize_max. rewrite U. reflexivity.
Qed.
Lemma strides_arr n im : strides_of im (strides_or_default (option_map (Arr n) (i_strides im))).
Proof.
  intros i row I. unfold st, eff_stride, strides_or_default, compute_stride. rewrite Nat2Z.id.
  destruct (i_strides im) as [l|]; cbn [option_map adata]; [reflexivity|].
  do 4 (destruct i as [|i]; [reflexivity|]). lia.
Qed.
Lemma sees_dcp set w h src dst sp dp ds e : 0 <= w -> valid_num_planes (i_pf src) (i_planes src) ->
  sees T (source_image set src dst w h)
    (dcp_convert_image (converters set) w h (Some (format_of src)) (i_strides src) sp (Some (format_of dst)) ds dp e) any.
Proof.
  intros W V. unfold dcp_convert_image. destruct sp as [sp|], dp as [dp|]; try exact I.
  destruct (_ || _); [exact I|].
  apply sees_bind.
  { apply sees_orM; (apply sees_bind; [apply sees_planes|intros ?; exact I]). }
  intros []; [exact I|].
  eapply sees_then; [apply sees_c_planes; [intros [|] ?; discriminate|reflexivity]|].
  intros [sl|] Pl; [|exact I].
  apply sees_bind; [apply sees_c_dst|intros [dl|]; [|exact I]].
  apply sees_bind; [|intros []; exact I].
  cbn [sees]. split; [intros T' [U _]; unfold isize_max; rewrite U; reflexivity|].
  apply sees_convert; [exact W|exact V|apply strides_arr|exact Pl].
Qed.
End Conv.

Lemma slices_plain bufs : forall k i s, nth_error (slices_from Src k bufs) i = Some s -> s_plane s = Src (k + i) /\ s_off s = 0.
Proof.
  induction bufs as [|b bufs IH]; intros k [|i] s; cbn [slices_from nth_error]; try discriminate.
  - intros E. injection E as <-. rewrite Nat.add_0_r. auto.
  - intros E. apply IH in E. rewrite Nat.add_succ_r. exact E.
Qed.
Lemma rust_plain bufs : plain (arr_of (rust_slices Src bufs)).
Proof. intros i s E. exact (slices_plain bufs 0 i s E). Qed.
Lemma strides_rust im : strides_of im (strides_or_default (option_map arr_of (i_strides im))).
Proof.
  pose proof (strides_arr 0 im) as H. intros i row L. rewrite <- (H i row L). destruct (i_strides im); reflexivity.
Qed.

(** The same target with overflow checks *)
Definition twin_of (T : target) : target := Target (usz T) true (big T).
Lemma twin_success set T w h src dst sb db m : successful_call (converters set) T w h src dst sb db m ->
  valid_image src w h /\ exists m', convert (converters set) (twin_of T) w h src dst sb db = Ok Success m'.
Proof.
  intros H. pose proof (success_has_room _ _ _ _ _ _ _ _ _ H) as R. pose proof (success_valid _ _ _ _ _ _ _ _ _ H) as HV.
  destruct H as (HT & HW & W0 & H0 & Ls & Ld & E).
  assert (HT' : is_target (twin_of T)) by exact HT.
  destruct HV as (Vs & Vd & Su). split; [exact Vs|].
  pose proof (laid_out_sizes_ok T w h src dst sb db HT HW W0 H0 Vs Vd Ls Ld) as HO.
  pose proof (laid_out_sizes_ok (twin_of T) w h src dst sb db HT' HW W0 H0 Vs Vd Ls Ld) as HO'.
  destruct (set_cases set T HT w h src dst sb db HW HO) as [C|[C|[C|[C|[C|C]]]]]; try (exfalso; intuition (congruence || lia)).
  destruct C as (_ & _ & _ & _ & En & Ck & _).
  destruct (set_cases set (twin_of T) HT' w h src dst sb db HW HO') as [C|[C|[C|[C|[C|C]]]]]; try (exfalso; intuition (congruence || lia)).
  destruct C as (_ & _ & _ & _ & _ & _ & _ & _ & C).
  destruct Ls as [Is As], Ld as [Id Ad]. destruct (C Is Id (fun _ => As) Ad) as [(after & Q & _)|[_ Q]]; [eauto|contradiction (Q R)].
Qed.

Lemma call_sees set T w h src dst sb db m : successful_call (converters set) T w h src dst sb db m ->
  (forall p a, In (Reads p a) (accesses (converters set) T w h src dst sb db) -> source_image set src dst w h p a) /\
  forall T', usz T' = usz T -> big T' = big T -> accesses (converters set) T' w h src dst sb db = accesses (converters set) T w h src dst sb db.
Proof.
  intros H. destruct (twin_success _ _ _ _ _ _ _ _ _ H) as [(_ & V & _) [m' E]]. destruct H as (_ & _ & W0 & _).
  unfold convert in E.
  pose proof (sees_convert (twin_of T) set w h src dst (option_map arr_of (i_strides src)) (arr_of (rust_slices Src sb))
    (option_map arr_of (i_strides dst)) (arr_of (rust_slices Dst db)) ltac:(lia) V (strides_rust src) (rust_plain sb)) as Q.
  destruct (sees_sound (twin_of T) _ _ eq_refl _ _ _ _ Q E) as (_ & R & Tw).
  unfold accesses. split.
  - intros p a. rewrite (Tw T) by (split; reflexivity). apply R.
  - intros T' U B. rewrite (Tw T) by (split; reflexivity). rewrite (Tw T') by (split; assumption). reflexivity.
Qed.
Lemma c_call_sees set T w h src dst sb db error : c_call set T w h src dst sb db ->
  (forall p a, In (Reads p a) (c_accesses (converters set) T w h src dst sb db error) -> source_image set src dst w h p a) /\
  forall T', usz T' = usz T -> big T' = big T -> c_accesses (converters set) T' w h src dst sb db error = c_accesses (converters set) T w h src dst sb db error.
Proof.
  intros (HT & HW & W0 & H0 & Vs & Vd & Su & Es & Ed & Ls & Ld & R & Ss & Sd).
  destruct (c_laid_out set (twin_of T) w h src dst sb db error HT HW W0 H0 Vs Vd Su Es Ed Ls Ld R Ss Sd) as (after & E & _).
  unfold c_convert in E.
  pose proof (sees_dcp (twin_of T) set w h src dst (Some (repeat true (length sb))) (Some (repeat true (length db))) (i_strides dst) error ltac:(lia) (proj1 (proj2 Vs))) as Q.
  destruct (sees_sound (twin_of T) _ _ eq_refl _ _ _ _ Q E) as (_ & Re & Tw).
  unfold c_accesses. split.
  - intros p a. rewrite (Tw T) by (split; reflexivity). apply Re.
  - intros T' U B. rewrite (Tw T) by (split; reflexivity). rewrite (Tw T') by (split; assumption). reflexivity.
Qed.
Lemma near_in im w h n a : near_image 0 0 im w h n a -> in_image im w h n a.
Proof.
  intros (g & y & j & G & N & Y & J & A). exists g, y, j. split; [exact G|]. split; [exact N|]. split; [exact Y|]. split; [|exact A].
  destruct (_ <? _); lia.
Qed.
Lemma source_inside set src dst w h p a : no_spill set (i_pf src) (i_pf dst) -> source_image set src dst w h p a -> exists n, p = Src n /\ in_image src w h n a.
Proof.
  intros [B S] (n & E & N). unfold readable in N. exists n. split; [exact E|]. apply near_in.
  replace (over_read set (i_pf src) (i_pf dst) w) with 0 in N.
  - match type of N with near_image _ ?e _ _ _ _ _ => replace e with 0 in N end; [exact N|]. unfold spill. cbv zeta. destruct (i_pf src), (i_pf dst); try reflexivity. contradiction S. auto.
  - unfold over_read. cbv zeta. destruct (i_pf src) eqn:Es; try (destruct set; reflexivity).
    specialize (B eq_refl). destruct set, (is_rgb (i_pf dst)); try reflexivity; destruct B as [B|[B|B]]; discriminate B.
Qed.
Lemma call_inside set T w h src dst sb db m : successful_call (converters set) T w h src dst sb db m -> no_spill set (i_pf src) (i_pf dst) ->
  forall p a, In (Reads p a) (accesses (converters set) T w h src dst sb db) -> exists n, p = Src n /\ in_image src w h n a.
Proof. intros H N p a R. eapply source_inside; [exact N|]. exact (proj1 (call_sees _ _ _ _ _ _ _ _ _ H) p a R). Qed.
Lemma c_call_inside set T w h src dst sb db error : c_call set T w h src dst sb db -> no_spill set (i_pf src) (i_pf dst) ->
  forall p a, In (Reads p a) (c_accesses (converters set) T w h src dst sb db error) -> exists n, p = Src n /\ in_image src w h n a.
Proof. intros H N p a R. eapply source_inside; [exact N|]. exact (proj1 (c_call_sees _ _ _ _ _ _ _ _ error H) p a R). Qed.

(** Without padding, the bytes after a row are those of the next one. *)
Lemma source_tight set src dst w h p a : 0 < w -> i_pf src = Rgb -> eff_stride (i_strides src) 0 (3 * w) = 3 * w -> source_image set src dst w h p a ->
  exists n, p = Src n /\ in_image src w h n a.
Proof.
  intros W E St (n & Ep & N). exists n. split; [exact Ep|]. unfold readable in N. rewrite E in N.
  replace (over_read set Rgb (i_pf dst) w) with 0 in N by (destruct set; reflexivity).
  assert (Sp : spill set Rgb (i_pf dst) w (eff_stride (i_strides src) 0 (bytes_per_pixel Rgb * w)) <= 2).
  { unfold spill. cbv zeta. destruct (i_pf dst); try lia. destruct (_ =? 0); [lia|]. destruct (_ =? 0); lia. }
  set (e := spill _ _ _ _ _) in *. clearbody e.
  destruct N as (g & y & j & G & B & Y & J & A). pose proof G as G'. unfold image_planes, planes in G. rewrite E in G. destruct G as [G|[]]. cbn [bytes_per_pixel] in G.
  rewrite St in G. subst g. cbn [g_buf g_base g_stride g_rows g_row] in *. destruct (Z.lt_ge_cases j (3 * w)) as [L|L].
  - eexists _, y, j. split; [exact G'|]. cbn [g_buf g_base g_stride g_rows g_row]. repeat split; try lia; exact B.
  - destruct (y + 1 <? h) eqn:Y'; [|lia].
    eexists _, (y + 1), (j - 3 * w). split; [exact G'|]. cbn [g_buf g_base g_stride g_rows g_row]. repeat split; try lia; exact B.
Qed.
Lemma call_tight set T w h src dst sb db m : successful_call (converters set) T w h src dst sb db m -> i_pf src = Rgb -> eff_stride (i_strides src) 0 (3 * w) = 3 * w ->
  forall p a, In (Reads p a) (accesses (converters set) T w h src dst sb db) -> exists n, p = Src n /\ in_image src w h n a.
Proof.
  intros H E St p a R. eapply source_tight; [|exact E|exact St|exact (proj1 (call_sees _ _ _ _ _ _ _ _ _ H) p a R)].
  destruct H as (_ & _ & W & _). exact W.
Qed.
Lemma c_call_tight set T w h src dst sb db error : c_call set T w h src dst sb db -> i_pf src = Rgb -> eff_stride (i_strides src) 0 (3 * w) = 3 * w ->
  forall p a, In (Reads p a) (c_accesses (converters set) T w h src dst sb db error) -> exists n, p = Src n /\ in_image src w h n a.
Proof.
  intros H E St p a R. eapply source_tight; [|exact E|exact St|exact (proj1 (c_call_sees _ _ _ _ _ _ _ _ error H) p a R)].
  destruct H as (_ & _ & W & _). exact W.
Qed.
(** The portable code never reads the next row. *)
Lemma source_x86 src dst w h p a : rows_apart src w h -> source_image X86 src dst w h p a ->
  exists n g y j, p = Src n /\ In g (image_planes src w h) /\ n = g_buf g /\ 0 <= y < g_rows g /\ 0 <= j < g_stride g /\ a = g_base g + y * g_stride g + j.
Proof.
  intros R (n & Ep & (g & y & j & G & B & Y & J & A)). exists n, g, y, j. repeat split; try assumption; try lia.
  pose proof (proj1 (Forall_forall _ _) R g G) as Q. cbv beta in Q.
  replace (over_read X86 (i_pf src) (i_pf dst) w) with 0 in J by reflexivity.
  destruct (i_pf src) eqn:E; cbn [spill] in J; try (destruct (_ <? _); lia).
  destruct (i_pf dst); try (destruct (_ <? _); lia).
  unfold image_planes, planes in G. rewrite E in G. destruct G as [<-|[]]. cbn [g_buf g_base g_stride g_rows g_row bytes_per_pixel] in *.
  set (s := eff_stride _ _ _) in *. unfold spill in J. cbv zeta iota in J.
  destruct (_ <? _); [|lia]. destruct (w =? 0) eqn:W0; [lia|]. destruct (_ =? 0); lia.
Qed.
Lemma call_x86 T w h src dst sb db m : successful_call (converters X86) T w h src dst sb db m ->
  forall p a, In (Reads p a) (accesses (converters X86) T w h src dst sb db) ->
  exists n g y j, p = Src n /\ In g (image_planes src w h) /\ n = g_buf g /\ 0 <= y < g_rows g /\ 0 <= j < g_stride g /\ a = g_base g + y * g_stride g + j.
Proof.
  intros H p a R. eapply source_x86; [|exact (proj1 (call_sees _ _ _ _ _ _ _ _ _ H) p a R)]. destruct H as (_ & _ & _ & _ & [_ A] & _). exact A.
Qed.
