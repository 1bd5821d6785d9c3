(** Facts behind the theorem on the acceptance of buffers. *)
From Coq Require Import ZArith List Bool Lia ZifyBool.
Import ListNotations.
From Verif Require Import Base Fmt Common Wrappers CpuInfo Spec SetSpec ApiSpec Lib Sets Api WrapperFacts ConvProofs
  SetProofs FinalProofs ApiProofs ConvertProofs CallFacts PadFacts PropFacts AcceptSpec.
Open Scope Z_scope.

Lemma image_taken_accepted packed im w h bufs :
  image_accepted packed (buf_len bufs) im w h = true <-> image_taken packed im w h bufs.
Proof.
  unfold image_accepted, image_taken, plane_taken, accepts.
  assert (F : forallb (fun g => g_stride g + (if packed then w else g_row g) * (g_rows g - 1) <=? buf_len bufs (g_buf g))
                (image_planes im w h) = true <->
              Forall (fun g => g_stride g + (if packed then w else g_row g) * (g_rows g - 1) <= buf_len bufs (g_buf g))
                (image_planes im w h)).
  { rewrite forallb_forall, Forall_forall. split; intros H g Hg; specialize (H g Hg); lia. }
  destruct (i_pf im); try exact F. destruct (i_planes im =? 1); [|exact F].
  cbn [andb]. cbv zeta. rewrite !andb_true_iff, !Z.leb_le. tauto.
Qed.

Lemma exact_acceptance set T w h src dst sb db : is_target64 T ->
  well_formed (usz T) w h src dst sb db -> 0 < w -> 0 < h ->
  (forall im, im = src \/ im = dst -> i_pf im = Nv12 -> i_planes im = 1 ->
     eff_stride (i_strides im) 0 w * h < 2 ^ 64) ->
  valid_image src w h -> valid_image dst w h -> supported (i_pf src) (i_pf dst) = true ->
  (convert (converters set) T w h src dst sb db = Ok (Err NotEnoughData) (Mem sb db) <->
   ~ buffers_taken src dst w h sb db).
Proof.
  intros HT HW W0 H0 Hn Vs Vd Hs.
  assert (HO : sizes_ok T src dst w h) by (apply sizes_ok64; auto; apply HW).
  unfold buffers_taken. cbv zeta. rewrite <- !image_taken_accepted.
  destruct (set_cases set T (or_introl HT) w h src dst sb db HW HO)
    as [C|[C|[C|[C|[C|C]]]]]; try (exfalso; intuition (congruence || lia)).
  - destruct C as (_ & _ & _ & _ & N & ->). tauto.
  - destruct C as (_ & _ & _ & _ & _ & Ck & ->). unfold size_check, both_rgb in Ck. split; [|reflexivity].
    intros _ (_ & _ & A1 & A2). rewrite A1, A2 in Ck. discriminate.
  - destruct C as (_ & _ & _ & _ & En & Ck & N & _). unfold size_check, both_rgb in Ck. apply andb_true_iff in Ck.
    split; [intros E; destruct (N _ _ E)|tauto].
Qed.

(** Images inside of their buffers are taken, if every plane has one whole stride. *)
Lemma taken_arith s r rows x len base : 0 < rows -> 0 <= x -> x <= r -> r <= s -> base + s <= len ->
  base + (rows - 1) * s + r <= len -> s + x * (rows - 1) <= len - base.
Proof.
  intros R X Xr Rs S1 S2. assert (rows = 1 \/ 1 < rows) as [-> | H] by lia; [lia|].
  assert (x * (rows - 1) <= r * (rows - 1)) by (apply Z.mul_le_mono_nonneg_r; lia).
  assert (0 <= (rows - 2) * (s - r)) by (apply Z.mul_nonneg_nonneg; lia). nia.
Qed.

Lemma planes_row_pos im w h g : 0 < w -> valid_size (i_pf im) w h -> In g (image_planes im w h) -> 0 < g_row g.
Proof.
  intros Hw Hz. unfold image_planes, planes.
  destruct (i_pf im); try destruct (i_planes im =? 1); cbn [In valid_size bytes_per_pixel] in *; intros H;
    repeat (destruct H as [H|H]; [subst g; cbn [g_row]; try (pose proof (Z.div_mod w 2 ltac:(lia))); lia|]); destruct H.
Qed.

Lemma laid_out_taken both im w h bufs lens : 0 < w -> 0 < h ->
  valid_size (i_pf im) w h -> (both = true -> is_rgb (i_pf im) = true) ->
  (forall i, buf_len bufs i <= lens i) -> laid_out im w h bufs -> stride_in lens im w h ->
  image_accepted both lens im w h = true.
Proof.
  intros Hw Hh Hz Hb Hl [Is Rs] Hs.
  pose proof (fun g => planes_rows im w h g Hw Hh Hz) as Hrows.
  unfold image_in, rows_apart, stride_in, plane_in in *. rewrite Forall_forall in Is, Rs, Hs.
  assert (G : forall g, In g (image_planes im w h) -> 0 < g_row g /\
     forall x, 0 <= x <= g_row g -> g_stride g + x * (g_rows g - 1) <= lens (g_buf g) - g_base g).
  { intros g Hg. specialize (Is g Hg). specialize (Rs g Hg). specialize (Hs g Hg). specialize (Hrows g Hg).
    specialize (Hl (g_buf g)). cbv beta in *. split; [exact (planes_row_pos im w h g Hw Hz Hg)|]. intros x Hx. apply taken_arith with (r := g_row g); lia. }
  assert (Hgen : (i_pf im = Nv12 -> i_planes im = 1 -> False) ->
    forallb (fun g => accepts (lens (g_buf g)) (g_stride g) (g_rows g)
                                (if both then w else g_row g)) (image_planes im w h) = true).
  { intros Hne. apply forallb_forall. intros g Hg. destruct (G g Hg) as [G0 G1].
    assert (Hb0 : g_base g = 0 /\ (both = true -> w <= g_row g)).
    { clear - Hg Hne Hb Hw. unfold image_planes, planes in Hg.
      destruct (i_pf im) eqn:Pf; try (destruct (Z.eqb_spec (i_planes im) 1) as [E1|E1]; [solve [exfalso; auto]|]);
        cbn [In bytes_per_pixel] in Hg;
        repeat (destruct Hg as [Hg|Hg]; [subst g; cbn [g_base g_row]; split; [lia|];
           first [intros _; lia | intros Eb; discriminate (Hb Eb)]|]); destruct Hg. }
    destruct Hb0 as [B0 B1]. unfold accepts. apply Z.leb_le.
    specialize (G1 (if both then w else g_row g)). rewrite B0 in G1. rewrite Z.sub_0_r in G1. apply G1.
    destruct both; [specialize (B1 eq_refl); lia|lia]. }
  unfold image_accepted.
  destruct (i_pf im) eqn:Pf; try (apply Hgen; congruence).
  destruct (Z.eqb_spec (i_planes im) 1) as [E1|E1]; [|apply Hgen; congruence].
  clear Hgen. unfold image_planes, planes in G, Hs, Is, Rs. rewrite Pf, E1 in G, Hs, Is, Rs.
  change (1 =? 1) with true in G, Hs, Is, Rs. cbv iota zeta in G, Hs, Is, Rs.
  set (s := eff_stride (i_strides im) 0 w) in *.
  pose proof (Rs _ (or_introl eq_refl)) as R0. pose proof (G _ (or_intror (or_introl eq_refl))) as [_ G2].
  cbn [g_base g_stride g_rows g_row g_buf] in *. cbn [valid_size] in Hz.
  cbv zeta. unfold accepts.
  specialize (G2 w ltac:(lia)).
  assert (0 <= w * (h / 2 - 1)) by (apply Z.mul_nonneg_nonneg; lia).
  assert (0 <= (h - 1) * (s - w)) by (apply Z.mul_nonneg_nonneg; lia).
  rewrite !andb_true_iff, !Z.leb_le. repeat split; nia.
Qed.

Lemma laid_out_sizes_ok T w h src dst sb db : is_target T -> well_formed (usz T) w h src dst sb db ->
  0 < w -> 0 < h -> valid_image src w h -> valid_image dst w h ->
  laid_out src w h sb -> laid_out dst w h db -> sizes_ok T src dst w h.
Proof. intros HT HW W0 H0 Vs Vd [Is _] [Id _]. eapply images_sizes_ok; eauto. Qed.

Lemma laid_out_accepted set T w h src dst sb db e m' : is_target T ->
  well_formed (usz T) w h src dst sb db -> 0 < w -> 0 < h ->
  valid_image src w h -> valid_image dst w h -> supported (i_pf src) (i_pf dst) = true ->
  enough_planes src sb -> enough_planes dst db ->
  laid_out src w h sb -> laid_out dst w h db ->
  stride_in (buf_len sb) src w h -> stride_in (buf_len db) dst w h ->
  convert (converters set) T w h src dst sb db <> Ok (Err e) m'.
Proof.
  intros HT HW W0 H0 Vs Vd Hs Es Ed Ls Ld Ss Sd.
  pose proof (laid_out_sizes_ok T w h src dst sb db HT HW W0 H0 Vs Vd Ls Ld) as HO.
  assert (Ck : size_check w h src dst sb db = true).
  { unfold size_check. apply andb_true_iff. split.
    - apply laid_out_taken with (bufs := sb); auto; [apply Vs| |intros; lia].
      unfold both_rgb. intros E. apply andb_true_iff in E. tauto.
    - apply laid_out_taken with (bufs := db); auto; [apply Vd| |intros; lia].
      unfold both_rgb. intros E. apply andb_true_iff in E. tauto. }
  destruct (set_cases set T HT w h src dst sb db HW HO)
    as [C|[C|[C|[C|[C|C]]]]]; try (exfalso; intuition (congruence || lia)).
  destruct C as (_ & _ & _ & _ & _ & _ & N & _). apply N.
Qed.

Lemma c_laid_out set T w h src dst sb db error : is_target T ->
  well_formed (usz T) w h src dst sb db -> 0 < w -> 0 < h ->
  valid_image src w h -> valid_image dst w h -> supported (i_pf src) (i_pf dst) = true ->
  enough_planes src sb -> enough_planes dst db ->
  laid_out src w h sb -> laid_out dst w h db -> room set src dst w h sb ->
  stride_in (fun _ => usz T / 2 - 1) src w h -> stride_in (fun _ => usz T / 2 - 1) dst w h ->
  exists after, c_convert (converters set) T w h src dst sb db error = Ok (C_Ok, error) (Mem sb after) /\
    converted (set_cols set (i_pf src) (i_pf dst) w) src dst w h sb db after.
Proof.
  intros HT HW W0 H0 Vs Vd Hs Es Ed Ls Ld R Ss Sd.
  pose proof (laid_out_sizes_ok T w h src dst sb db HT HW W0 H0 Vs Vd Ls Ld) as HO.
  destruct (format_planes_u32 _ _ _ _ _ _ _ HW) as [Us Ud].
  destruct HW as (W & H & _ & _ & Bss & Bsd & Bs & Bd).
  assert (Ck : c_size_check T w h src dst = true).
  { unfold c_size_check. apply andb_true_iff. split.
    - apply laid_out_taken with (bufs := sb); [exact W0|exact H0|apply Vs| |intros i; apply (buffers_len (isize_max T)); [destruct (isize_usz T HT); lia|exact Bs]|exact Ls|exact Ss].
      unfold both_rgb. intros E. apply andb_true_iff in E. tauto.
    - apply laid_out_taken with (bufs := db); [exact W0|exact H0|apply Vd| |intros i; apply (buffers_len (isize_max T)); [destruct (isize_usz T HT); lia|exact Bd]|exact Ld|exact Sd].
      unfold both_rgb. intros E. apply andb_true_iff in E. tauto. }
  pose proof (c_convert_cases T HT (set_cols set) (set_slack set) (converters set) (set_ok set T) w h W H
    src dst sb db Bd Bss Bsd Bs error Us Ud HO Es Ed) as C. cbv zeta in C.
  rewrite (slack_of_set set src dst w Hs) in C.
  destruct C as [C|[C|[C|[C|C]]]]; try (exfalso; intuition (congruence || lia)).
  destruct C as (_ & _ & _ & _ & _ & C). apply C; auto; [apply Ld|intros _; apply Ls|apply Ld].
Qed.
