(** Agreement of the C header and the Rust declarations: proofs. *)
From Coq Require Import ZArith List Bool String Ascii Lia.
Import ListNotations.
From Verif Require Import Base Fmt Dispatch Spec ApiSpec CpuInfo Lib Api Header HeaderSpec.
From Verif Require Import Common Wrappers SizeProps CApiFacts.
Open Scope Z_scope.
Open Scope string_scope.

Lemma of_to_bytes n : forall x, 0 <= x < 256 ^ Z.of_nat n -> of_bytes (to_bytes n x) = x.
Proof.
  induction n as [|n IH]; intros x Hx.
  - change (256 ^ Z.of_nat 0) with 1 in Hx. cbn. lia.
  - rewrite Nat2Z.inj_succ, Z.pow_succ_r in Hx by lia. cbn [to_bytes of_bytes]. rewrite IH.
    + pose proof (Z.div_mod x 256). lia.
    + split; [apply Z.div_pos; lia|apply Z.div_lt_upper_bound; lia].
Qed.

Lemma pf_enumerator pf : enumerator DcpPixelFormat (c_pixel_format pf) = Some (pf_u32 pf).
Proof. destruct pf; reflexivity. Qed.
Lemma pf_enumerator_back n v : In (n, v) (enumerators DcpPixelFormat) ->
  exists pf, n = c_pixel_format pf /\ v = pf_u32 pf.
Proof.
  intro H. vm_compute in H.
  repeat (destruct H as [H|H]; [injection H as <- <-|]); [exists Argb|exists Bgra|exists Bgr|exists Rgba|exists Rgb|exists I444|exists I422|exists I420|exists Nv12|destruct H]; split; reflexivity.
Qed.
Lemma cs_enumerator cs : enumerator DcpColorSpace (c_color_space cs) = Some (cs_u32 cs).
Proof. destruct cs; reflexivity. Qed.
Lemma cs_enumerator_back n v : In (n, v) (enumerators DcpColorSpace) ->
  exists cs, (n = c_color_space cs \/ n = "DCP_COLOR_SPACE_LRGB" /\ cs = CsRgb) /\ v = cs_u32 cs.
Proof.
  intro H. vm_compute in H.
  repeat (destruct H as [H|H]; [injection H as <- <-|]); [exists CsRgb|exists Bt601|exists Bt709|exists Bt601FR|exists Bt709FR|exists CsRgb|destruct H];
  (split; [|reflexivity]); [left; reflexivity..|right; split; reflexivity].
Qed.

Lemma stored_read T a b n bytes : 0 <= a < 2 ^ 32 -> 0 <= b < 2 ^ 32 -> 0 <= n < 2 ^ 32 ->
  stored T DcpImageFormat (format_init a b n) bytes -> read_format T bytes = Some (ImageFormat a b n).
Proof.
  intros Ha Hb Hn H. unfold read_format, field_value.
  assert (L : field_layout T ImageFormat_fields 0 =
              [("pixel_format", (0, 4)); ("color_space", (4, 4)); ("num_planes", (8, 4))]) by reflexivity.
  assert (L' : field_layout T DcpImageFormat 0 =
              [("pixel_format", (0, 4)); ("color_space", (4, 4)); ("num_planes", (8, 4))]) by reflexivity.
  unfold stored in H. rewrite L' in H. rewrite L. cbn [lookup String.eqb Ascii.eqb Bool.eqb].
  pose proof (H "pixel_format" 0 4 (or_introl eq_refl)) as (_ & H0).
  pose proof (H "color_space" 4 4 (or_intror (or_introl eq_refl))) as (_ & H1).
  pose proof (H "num_planes" 8 4 (or_intror (or_intror (or_introl eq_refl)))) as (_ & H2).
  cbv zeta in H0, H1, H2. rewrite H0, H1, H2.
  change (format_init a b n "pixel_format") with a. change (format_init a b n "color_space") with b.
  change (format_init a b n "num_planes") with n.
  rewrite !of_to_bytes by (change (256 ^ Z.of_nat (Z.to_nat 4)) with (2 ^ 32); assumption). reflexivity.
Qed.

Lemma doc_listed src dst : listed src dst <-> supported src dst = true.
Proof.
  assert (D : forall s d, (exists l, In (s, l) doc_conversions /\ In d l) <->
              existsb (fun q => String.eqb s (fst q) && existsb (String.eqb d) (snd q)) doc_conversions = true).
  { intros s d. rewrite existsb_exists. split.
    - intros (l & I & J). exists (s, l). split; [assumption|]. cbn [fst snd]. rewrite String.eqb_refl. cbn [andb].
      apply existsb_exists. exists d. split; [assumption|apply String.eqb_refl].
    - intros ((s', l) & I & J). apply andb_true_iff in J. destruct J as (J & K). cbn [fst snd] in *.
      apply String.eqb_eq in J. subst s'. apply existsb_exists in K. destruct K as (d' & K & E).
      apply String.eqb_eq in E. subst d'. exists l. split; assumption. }
  unfold listed. rewrite D. destruct src, dst; vm_compute; split; congruence.
Qed.

Lemma doc_colors_valid pf cs :
  (exists l, In (c_pixel_format pf, l) doc_colors /\ In (c_color_space cs) l) <-> valid_colors pf cs.
Proof.
  assert (D : forall s d, (exists l, In (s, l) doc_colors /\ In d l) <->
              existsb (fun q => String.eqb s (fst q) && existsb (String.eqb d) (snd q)) doc_colors = true).
  { intros s d. rewrite existsb_exists. split.
    - intros (l & I & J). exists (s, l). split; [assumption|]. cbn [fst snd]. rewrite String.eqb_refl. cbn [andb].
      apply existsb_exists. exists d. split; [assumption|apply String.eqb_refl].
    - intros ((s', l) & I & J). apply andb_true_iff in J. destruct J as (J & K). cbn [fst snd] in *.
      apply String.eqb_eq in J. subst s'. apply existsb_exists in K. destruct K as (d' & K & E).
      apply String.eqb_eq in E. subst d'. exists l. split; assumption. }
  rewrite D. unfold valid_colors. destruct pf, cs; vm_compute; intuition congruence.
Qed.

(** The row of a pixel format. *)
Lemma doc_row_of pf r : In (c_pixel_format pf, r) doc_formats ->
  r = match pf with
      | Argb | Bgra | Rgba => DocRow 1 1 [1] [(4, 1)]
      | Bgr | Rgb => DocRow 1 1 [1] [(3, 1)]
      | I444 => DocRow 1 1 [3] [(1, 1); (1, 1); (1, 1)]
      | I422 => DocRow 2 1 [1; 3] [(1, 1); (1, 2); (1, 2)]
      | I420 => DocRow 2 2 [3] [(1, 1); (1, 4); (1, 4)]
      | Nv12 => DocRow 2 2 [1; 2] [(1, 1); (1, 2)]
      end.
Proof.
  intro H. destruct pf; vm_compute in H;
  repeat (destruct H as [H|H]; [first [discriminate H|injection H as <-; reflexivity]|]); destruct H.
Qed.
Lemma doc_row_in pf : exists r, In (c_pixel_format pf, r) doc_formats.
Proof. destruct pf; eexists; vm_compute; repeat (first [left; reflexivity|right]). Qed.

(** The plane counts and sizes of the table. *)
Lemma row_valid pf r n w h : In (c_pixel_format pf, r) doc_formats -> pf <> I422 \/ n <> 1 ->
  (In n (d_planes r) /\ w mod d_w r = 0 /\ h mod d_h r = 0 <-> valid_num_planes pf n /\ valid_size pf w h).
Proof.
  intros H E. rewrite (doc_row_of _ _ H).
  destruct pf; cbn [d_planes d_w d_h valid_num_planes valid_size In]; rewrite ?Z.mod_1_r; intuition lia.
Qed.

Lemma row_sizes pf cs r n w h : In (c_pixel_format pf, r) doc_formats -> 0 <= w -> 0 <= h ->
  valid_num_planes pf n -> valid_size pf w h ->
  documented_sizes (Image pf cs n None) w h = table_sizes r n w h.
Proof.
  intros H Hw Hh Hn Hs. rewrite (doc_row_of _ _ H). unfold documented_sizes, table_sizes.
  assert (A : forall x, x mod 2 = 0 -> exists y, x = 2 * y).
  { intros x Hx. exists (x / 2). pose proof (Z.div_mod x 2). lia. }
  destruct pf; cbn [valid_num_planes valid_size] in Hn, Hs;
  try (destruct Hn as [Hn|Hn]); subst n;
  try (destruct Hs as (Hs & Ht); destruct (A _ Hs) as (u & ->); destruct (A _ Ht) as (v & ->));
  try (destruct (A _ Hs) as (u & ->));
  cbn [d_sizes map fst snd fold_right i_planes]; 
  (match goal with |- context [Z.to_nat ?k] => let k' := eval vm_compute in (Z.to_nat k) in change (Z.to_nat k) with k' end);
  unfold image_planes, planes, eff_stride; cbn -[Z.mul Z.div Z.add Z.sub];
  repeat (apply (f_equal2 (@cons Z)); [|try reflexivity]);
  repeat match goal with
    | |- context [1 * (2 * ?a) * (2 * ?b) / 4] => replace (1 * (2 * a) * (2 * b)) with (a * b * 4) by ring; rewrite Z.div_mul by lia
    | |- context [1 * (2 * ?a) * ?b / 2] => replace (1 * (2 * a) * b) with (a * b * 2) by ring; rewrite Z.div_mul by lia
    | |- context [2 * ?x / 2] => rewrite (Z.mul_comm 2 x), Z.div_mul by lia
    end; rewrite ?Z.div_1_r; ring.
Qed.

Lemma table_call T w h pf cs r n out m : is_target T -> 0 <= w < 2 ^ 32 -> 0 <= h < 2 ^ 32 ->
  In (c_pixel_format pf, r) doc_formats -> In n (d_planes r) -> w mod d_w r = 0 -> h mod d_h r = 0 ->
  pf <> I422 \/ n <> 1 -> n <= Z.of_nat (List.length out) ->
  Forall (fun s => s < usz T) (table_sizes r n w h) ->
  get_buffers_size w h (format_of (Image pf cs n None)) None out T m =
  Ok (Success, (table_sizes r n w h ++ skipn (Z.to_nat n) out)%list) m.
Proof.
  intros HT Hw Hh Hr Hn H1 H2 E Ho Hs.
  destruct (proj1 (row_valid pf r n w h Hr E) (conj Hn (conj H1 H2))) as (V & W).
  rewrite <- (row_sizes pf cs r n w h Hr) in * by (lia || assumption).
  apply (size_default T w h pf cs n out m); assumption.
Qed.

Lemma prototypes_agree : map c_prototype rust_functions = header_functions.
Proof. reflexivity. Qed.

Lemma plane_stride_auto spec w k i : (i < 4)%nat ->
  plane_stride spec w (repeat DCP_STRIDE_AUTO k) (Z.of_nat i) = plane_stride spec w DEFAULT_STRIDES (Z.of_nat i).
Proof.
  intro Hi. unfold plane_stride. rewrite !Nat2Z.id.
  assert (E : nth i (repeat DCP_STRIDE_AUTO k) 0 = 0).
  { clear. revert i. induction k as [|k IH]; intros [|i]; cbn; auto. }
  rewrite E. replace (nth i DEFAULT_STRIDES 0) with 0 by (destruct i as [|[|[|[|i]]]]; reflexivity || lia).
  change (0 =? STRIDE_AUTO)%Z with true. rewrite !orb_true_r. reflexivity.
Qed.

Lemma auto_pf_sizes pf w h l k out T m : 0 <= l -> l < Z.of_nat k ->
  pf_get_buffers_size pf w h l (repeat DCP_STRIDE_AUTO k) out T m = pf_get_buffers_size pf w h l DEFAULT_STRIDES out T m.
Proof.
  intros Hl Hk. unfold pf_get_buffers_size.
  assert (Z1 : (zlen (repeat DCP_STRIDE_AUTO k) <=? l)%Z = false).
  { apply Z.leb_gt. unfold zlen. rewrite repeat_length. lia. }
  rewrite Z1. destruct (MAX_NUMBER_OF_PLANES <=? l)%Z eqn:E; [reflexivity|].
  change (zlen DEFAULT_STRIDES) with 4. change MAX_NUMBER_OF_PLANES with 4 in E. rewrite E. cbn [orb].
  destruct (zlen out <=? l)%Z; [reflexivity|].
  pose proof (fun spec => plane_stride_auto spec w k 0 ltac:(lia)) as P0.
  pose proof (fun spec => plane_stride_auto spec w k 1 ltac:(lia)) as P1.
  pose proof (fun spec => plane_stride_auto spec w k 2 ltac:(lia)) as P2.
  pose proof (fun spec => plane_stride_auto spec w k 3 ltac:(lia)) as P3.
  cbn [Z.of_nat Pos.of_succ_nat Pos.succ] in P0, P1, P2, P3.
  (unfold bind; cbn [run]). destruct (index STRIDE_SPECS pf T m) as [sp m2|]; [|reflexivity].
  rewrite P0. destruct (plane_stride sp w DEFAULT_STRIDES 0 T m2) as [s0 m3|]; [|reflexivity].
  rewrite P1. destruct (plane_stride sp w DEFAULT_STRIDES 1 T m3) as [s1 m4|]; [|reflexivity].
  rewrite P2. destruct (plane_stride sp w DEFAULT_STRIDES 2 T m4) as [s2 m5|]; [|reflexivity].
  rewrite P3. reflexivity.
Qed.
Lemma auto_strides w h f k out T m : 1 <= f_planes f < 2 ^ 32 -> f_planes f <= Z.of_nat k ->
  get_buffers_size w h f (Some (repeat DCP_STRIDE_AUTO k)) out T m = get_buffers_size w h f None out T m.
Proof.
  intros Hn Hk. unfold get_buffers_size. cbv zeta.
  assert (Hu : u32 (f_planes f - 1) = f_planes f - 1) by (unfold u32; apply Z.mod_small; lia).
  rewrite Hu. (unfold bind; cbn [run]). destruct (is_compatible _ _ _ _ T m) as [[|] m1|]; try reflexivity.
  change (negb true) with false. cbv iota beta. cbn [run]. rewrite auto_pf_sizes by lia. reflexivity.
Qed.

(** Codes. *)
Lemma pf_code v : 0 <= v < 2 ^ 32 ->
  (is_pixel_format_valid v = true <-> exists n, In (n, v) (enumerators DcpPixelFormat)).
Proof.
  intro H. split.
  - intro V. unfold is_pixel_format_valid, u32 in V. apply Z.leb_le in V.
    change (HI_YUV_PIXEL_FORMAT - LO_RGB_PIXEL_FORMAT) with 8 in V. change LO_RGB_PIXEL_FORMAT with 0 in V.
    rewrite Z.sub_0_r in V. change (8 mod 2 ^ 32) with 8 in V. rewrite Z.mod_small in V by lia.
    assert (C : v = 0 \/ v = 1 \/ v = 2 \/ v = 3 \/ v = 4 \/ v = 5 \/ v = 6 \/ v = 7 \/ v = 8) by lia.
    repeat destruct C as [C|C]; subst v; eexists; vm_compute; repeat (first [left; reflexivity|right]).
  - intros (n & I). destruct (pf_enumerator_back _ _ I) as (pf & _ & ->). destruct pf; reflexivity.
Qed.
Lemma cs_code v : 0 <= v < 2 ^ 32 ->
  (is_color_space_valid v = true <-> exists n, In (n, v) (enumerators DcpColorSpace)).
Proof.
  intro H. split.
  - intro V. unfold is_color_space_valid, u32 in V. apply Z.leb_le in V.
    change (HI_YUV_COLOR_SPACE - LO_RGB_COLOR_SPACE) with 4 in V. change LO_RGB_COLOR_SPACE with 0 in V.
    rewrite Z.sub_0_r in V. change (4 mod 2 ^ 32) with 4 in V. rewrite Z.mod_small in V by lia.
    assert (C : v = 0 \/ v = 1 \/ v = 2 \/ v = 3 \/ v = 4) by lia.
    repeat destruct C as [C|C]; subst v; eexists; vm_compute; repeat (first [left; reflexivity|right]).
  - intros (n & I). destruct (cs_enumerator_back _ _ I) as (cs & _ & ->). destruct cs; reflexivity.
Qed.

Lemma pf_names_differ pf pf' : c_pixel_format pf = c_pixel_format pf' -> pf = pf'.
Proof. destruct pf, pf'; vm_compute; congruence. Qed.
Lemma cs_names_differ cs cs' : c_color_space cs = c_color_space cs' -> cs = cs'.
Proof. destruct cs, cs'; vm_compute; congruence. Qed.

Lemma stored_format T pf cs n st a b bytes : 0 <= n < 2 ^ 32 ->
  enumerator DcpPixelFormat (c_pixel_format pf) = Some a ->
  enumerator DcpColorSpace (c_color_space cs) = Some b ->
  stored T DcpImageFormat (format_init a b n) bytes ->
  read_format T bytes = Some (format_of (Image pf cs n st)).
Proof.
  intros Hn Ha Hb H. rewrite pf_enumerator in Ha. rewrite cs_enumerator in Hb.
  injection Ha as <-. injection Hb as <-. rewrite (stored_read T (pf_u32 pf) (cs_u32 cs) n).
  - reflexivity.
  - destruct pf; cbn; lia.
  - destruct cs; cbn; lia.
  - assumption.
  - assumption.
Qed.

Lemma error_enumerator e : enumerator DcpErrorKind (c_error e) = Some (error_u32 e).
Proof. destruct e; reflexivity. Qed.
Lemma error_enumerator_back n v : In (n, v) (enumerators DcpErrorKind) ->
  exists e, n = c_error e /\ v = error_u32 e.
Proof.
  intro H. vm_compute in H.
  repeat (destruct H as [H|H]; [injection H as <- <-|]); [exists InvalidValue|exists InvalidOperation|exists NotEnoughData|destruct H]; split; reflexivity.
Qed.
Lemma result_enumerator r : enumerator DcpResult (c_result_name r) = Some (result_u32 r).
Proof. destruct r; reflexivity. Qed.
Lemma result_enumerator_back n v : In (n, v) (enumerators DcpResult) ->
  exists r, n = c_result_name r /\ v = result_u32 r.
Proof.
  intro H. vm_compute in H.
  repeat (destruct H as [H|H]; [injection H as <- <-|]); [exists C_Ok|exists C_Err|destruct H]; split; reflexivity.
Qed.

Lemma pf_codes_differ pf pf' : pf_u32 pf = pf_u32 pf' -> pf = pf'.
Proof. destruct pf, pf'; vm_compute; congruence. Qed.
Lemma cs_codes_differ cs cs' : cs_u32 cs = cs_u32 cs' -> cs = cs'.
Proof. destruct cs, cs'; vm_compute; congruence. Qed.
Lemma error_codes_differ e e' : error_u32 e = error_u32 e' -> e = e'.
Proof. destruct e, e'; vm_compute; congruence. Qed.
Lemma result_codes_differ r r' : result_u32 r = result_u32 r' -> r = r'.
Proof. destruct r, r'; vm_compute; congruence. Qed.

Lemma pf_table n v : (exists pf, n = c_pixel_format pf /\ v = pf_u32 pf) <-> In (n, v) (enumerators DcpPixelFormat).
Proof.
  split; [|apply pf_enumerator_back]. intros (pf & -> & ->).
  destruct pf; vm_compute; repeat (first [left; reflexivity|right]).
Qed.
Lemma cs_table n v :
  (exists cs, n = c_color_space cs /\ v = cs_u32 cs) \/ n = "DCP_COLOR_SPACE_LRGB" /\ v = cs_u32 CsRgb <->
  In (n, v) (enumerators DcpColorSpace).
Proof.
  split.
  - intros [(cs & -> & ->)|(-> & ->)]; [destruct cs|]; vm_compute; repeat (first [left; reflexivity|right]).
  - intro H. destruct (cs_enumerator_back _ _ H) as (cs & [->|(-> & ->)] & ->); [left; exists cs|right]; split; reflexivity.
Qed.
Lemma error_table n v : (exists e, n = c_error e /\ v = error_u32 e) <-> In (n, v) (enumerators DcpErrorKind).
Proof.
  split; [|apply error_enumerator_back]. intros (e & -> & ->).
  destruct e; vm_compute; repeat (first [left; reflexivity|right]).
Qed.
Lemma result_table n v : (exists r, n = c_result_name r /\ v = result_u32 r) <-> In (n, v) (enumerators DcpResult).
Proof.
  split; [|apply result_enumerator_back]. intros (r & -> & ->).
  destruct r; vm_compute; repeat (first [left; reflexivity|right]).
Qed.

Lemma header_call impl T w h src dst sb db error a b a' b' sbytes dbytes m :
  0 <= i_planes src < 2 ^ 32 -> 0 <= i_planes dst < 2 ^ 32 ->
  enumerator DcpPixelFormat (c_pixel_format (i_pf src)) = Some a ->
  enumerator DcpColorSpace (c_color_space (i_cs src)) = Some b ->
  enumerator DcpPixelFormat (c_pixel_format (i_pf dst)) = Some a' ->
  enumerator DcpColorSpace (c_color_space (i_cs dst)) = Some b' ->
  stored T DcpImageFormat (format_init a b (i_planes src)) sbytes ->
  stored T DcpImageFormat (format_init a' b' (i_planes dst)) dbytes ->
  dcp_convert_image impl w h (read_format T sbytes) (i_strides src) sb (read_format T dbytes) (i_strides dst) db error T m =
  dcp_convert_image impl w h (Some (format_of src)) (i_strides src) sb (Some (format_of dst)) (i_strides dst) db error T m.
Proof.
  intros Hs Hd Ha Hb Ha' Hb' S D.
  rewrite (stored_format T _ _ _ (i_strides src) _ _ _ Hs Ha Hb S), (stored_format T _ _ _ (i_strides dst) _ _ _ Hd Ha' Hb' D).
  destruct src, dst; reflexivity.
Qed.

Lemma doc_operation impl T w h src dst ss sb ds db m :
  0 <= i_planes src < 2 ^ 32 -> 0 <= i_planes dst < 2 ^ 32 -> valid_image src w h -> valid_image dst w h ->
  (~ listed (i_pf src) (i_pf dst) ->
   convert_image impl w h (format_of src) ss sb (format_of dst) ds db T m = Ok (Err InvalidOperation) m) /\
  (listed (i_pf src) (i_pf dst) ->
   forall m', convert_image impl w h (format_of src) ss sb (format_of dst) ds db T m <> Ok (Err InvalidOperation) m').
Proof.
  intros Hs Hd Vs Vd. destruct (not_dispatched impl T w h src dst ss sb ds db m Hs Hd Vs Vd) as (A & B).
  rewrite doc_listed. split; [|exact B]. intro N. apply A. destruct (supported _ _); congruence.
Qed.

Lemma table_refused T w h pf cs r n st out m : is_target T ->
  0 <= w < 2 ^ 32 -> 0 <= h < 2 ^ 32 -> 0 <= n < 2 ^ 32 -> In (c_pixel_format pf, r) doc_formats ->
  ~ (In n (d_planes r) /\ w mod d_w r = 0 /\ h mod d_h r = 0) ->
  get_buffers_size w h (format_of (Image pf cs n st)) st out T m = Ok (Err InvalidValue, out) m.
Proof.
  intros HT Hw Hh Hn Hr N. apply (size_invalid T w h (Image pf cs n st) out m); [assumption..|].
  cbn [i_pf i_planes]. intros (V & W). apply N. revert V W. rewrite (doc_row_of _ _ Hr).
  destruct pf; cbn [d_planes d_w d_h valid_num_planes valid_size In]; rewrite ?Z.mod_1_r; intuition lia.
Qed.

Lemma i422_one_plane : exists r, In (c_pixel_format I422, r) doc_formats /\ In 1 (d_planes r) /\
  forall T w h cs st out m, is_target T -> 0 <= w < 2 ^ 32 -> 0 <= h < 2 ^ 32 ->
  get_buffers_size w h (format_of (Image I422 cs 1 st)) st out T m = Ok (Err InvalidValue, out) m.
Proof.
  exists (DocRow 2 1 [1; 3] [(1, 1); (1, 2); (1, 2)]). split; [vm_compute; tauto|]. split; [vm_compute; tauto|].
  intros T w h cs st out m HT Hw Hh. apply (size_invalid T w h (Image I422 cs 1 st) out m); [assumption..|cbn [i_planes]; lia|].
  cbn [i_pf i_planes valid_num_planes]. lia.
Qed.
