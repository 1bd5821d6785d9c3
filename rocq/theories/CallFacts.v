(** The theorems of [ConvertProofs] in the vocabulary of [ApiSpec]. *)
From Coq Require Import ZArith List Bool Lia ZifyBool ZifyNat.
Import ListNotations.
From Verif Require Import Base Exec Area Fmt Dispatch Common Scalar Wrappers Lib Spec ApiSpec Api PixelFacts
  KernelBase WrapperFacts ConvProofs LibFacts ApiProofs FinalProofs ConvertProofs ResultFacts Quiet.
Open Scope Z_scope.
Ltac Zify.zify_post_hook ::= Z.div_mod_to_equations.

(** A plane whose size check is meaningful: packed, or of two rows, or of one row
    not longer than the stride. *)
Definition easy_plane (g : geom) : Prop :=
  (g_rows g = 1 -> g_row g <= g_stride g) /\ (2 < g_rows g -> g_stride g <= g_row g).

Lemma accepted_plane im w h bufs : 0 < w -> 0 < h -> valid_size (i_pf im) w h ->
  image_accepted false (buf_len bufs) im w h = true ->
  forall g, In g (image_planes im w h) -> easy_plane g -> plane_in 0 bufs g.
Proof.
  intros Hw Hh Hz Ha g Hg He. unfold plane_in.
  assert (Hrows : 1 <= g_rows g).
  { clear - Hw Hh Hz Hg. unfold image_planes, planes in Hg.
    destruct (i_pf im) eqn:Pf; cbn [valid_size] in Hz; try (destruct (Z.eqb_spec (i_planes im) 1));
      cbn [In] in Hg; intuition (subst g; cbn [g_rows]; lia). }
  assert (Hgen : g_base g = 0 -> accepts (buf_len bufs (g_buf g)) (g_stride g) (g_rows g) (g_row g) = true ->
     g_base g + (g_rows g - 1) * g_stride g + g_row g + 0 <= buf_len bufs (g_buf g)).
  { intros E HA. unfold accepts in HA. destruct He as [He1 He2].
    destruct (Z.eq_dec (g_rows g) 1) as [E1|]; [rewrite E1 in *; specialize (He1 eq_refl); lia|].
    destruct (Z.eq_dec (g_rows g) 2) as [E2|]; [rewrite E2 in *; lia|].
    specialize (He2 ltac:(lia)). nia. }
  assert (Hall : (i_pf im = Nv12 -> i_planes im = 1 -> False) ->
    g_base g = 0 /\ accepts (buf_len bufs (g_buf g)) (g_stride g) (g_rows g) (g_row g) = true).
  { intros Hne. unfold image_accepted in Ha.
    assert (Hf : forallb (fun g => accepts (buf_len bufs (g_buf g)) (g_stride g) (g_rows g) (g_row g)) (image_planes im w h) = true).
    { destruct (i_pf im) eqn:Pf; auto. destruct (Z.eqb_spec (i_planes im) 1); [exfalso; auto|auto]. }
    rewrite forallb_forall in Hf. split; [|apply Hf; auto].
    clear - Hg Hne. unfold image_planes, planes in Hg.
    destruct (i_pf im) eqn:Pf; try (destruct (Z.eqb_spec (i_planes im) 1) as [E1|E1]; [solve [exfalso; auto]|]);
        cbn [In] in Hg; intuition (subst g; reflexivity). }
  destruct (i_pf im) eqn:Pf; try (apply Hgen; apply Hall; congruence).
  destruct (Z.eqb_spec (i_planes im) 1) as [E1|E1]; [|apply Hgen; apply Hall; congruence].
  clear Hgen Hall. cbn [valid_size] in Hz. unfold image_accepted, image_planes, planes in *. rewrite Pf, E1 in *.
  cbn [Z.eqb Pos.eqb] in *. set (s := eff_stride (i_strides im) 0 w) in *. clearbody s.
  rewrite !andb_true_iff in Ha. destruct Ha as [[A1 A2] A3]. unfold accepts in *.
  assert (2 * (h / 2) = h) by lia. set (ch := h / 2) in *. clearbody ch.
  cbn [In] in Hg. destruct Hg as [<-|[<-|[]]]; unfold easy_plane in He; cbn [g_base g_stride g_rows g_row g_buf] in *;
    destruct He as [He1 He2].
  - assert (w <= s) by nia. nia.
  - assert (w <= s) by nia. destruct (Z.eq_dec ch 1) as [->|]; [lia|].
    destruct (Z.eq_dec ch 2) as [->|]; [lia|]. specialize (He2 ltac:(lia)). assert (s = w) by lia. subst s. nia.
Qed.

Section Generic.
Variable T : target.
Hypothesis HT : is_target T.
Variable A : pixel_format -> pixel_format -> Z -> columns.
Variable slack : pixel_format -> sampler -> Z -> Z.
Variable impl : conv -> converter.
Hypothesis HI : impl_ok T A slack impl.

Lemma documented_ok w h src dst sb db :
  documented_call (usz T) w h src dst sb db ->
  0 <= slack_of slack src dst w -> image_in (slack_of slack src dst w) src w h sb ->
  exists after, convert impl T w h src dst sb db = Ok Success (Mem sb after) /\
                converted (A (i_pf src) (i_pf dst) w) src dst w h sb db after.
Proof.
  intros ((W & H & _ & _ & Ss & Sd & Bs & Bd) & W0 & H0 & Vs & Vd & Hsup & Es & Ed & Fs & Fd) S0 S1.
  eapply convert_rust_ok; eauto.
Qed.

Lemma documented_ok_c w h src dst sb db error :
  documented_call (usz T) w h src dst sb db ->
  0 <= slack_of slack src dst w -> image_in (slack_of slack src dst w) src w h sb ->
  exists after, c_convert impl T w h src dst sb db error = Ok (C_Ok, error) (Mem sb after) /\
                converted (A (i_pf src) (i_pf dst) w) src dst w h sb db after.
Proof.
  intros ((W & H & _ & _ & Ss & Sd & Bs & Bd) & W0 & H0 & Vs & Vd & Hsup & Es & Ed & Fs & Fd) S0 S1.
  eapply c_convert_ok; eauto.
Qed.

Lemma format_planes_u32 usz w h src dst sb db : well_formed usz w h src dst sb db -> planes_u32 src /\ planes_u32 dst.
Proof. intros (_ & _ & P1 & P2 & _). split; assumption. Qed.

(** The call by kinds of arguments, before looking at the buffers. *)
Lemma convert_first w h src dst sb db :
  well_formed (usz T) w h src dst sb db ->
  let valid := valid_image src w h /\ valid_image dst w h in
  let supp := supported (i_pf src) (i_pf dst) in
  let r := convert impl T w h src dst sb db in
  let m := Mem sb db in
  (~ valid /\ r = Ok (Err InvalidValue) m) \/
  (valid /\ supp = false /\ r = Ok (Err InvalidOperation) m) \/
  (valid /\ supp = true /\ (w = 0 \/ h = 0) /\ r = Ok Success m) \/
  (valid /\ supp = true /\ 0 < w /\ 0 < h).
Proof.
  intros HW valid supp r m. destruct (format_planes_u32 _ _ _ _ _ _ _ HW) as [Us Ud].
  destruct HW as (W & H & _).
  pose proof (convert_image_cases impl w h src (option_map arr_of (i_strides src)) (arr_of (rust_slices Src sb))
                dst (option_map arr_of (i_strides dst)) (arr_of (rust_slices Dst db)) T m Us Ud) as HC.
  cbv zeta in HC.
  match type of HC with _ /\ ?x = _ \/ _ => change x with r in HC end.
  destruct HC as [HC|[HC|HC]]; [left; exact HC|right; left; subst valid supp; tauto|].
  destruct HC as (Vs & Vd & Hsup & Er). do 2 right.
  assert (Hz : (w = 0 \/ h = 0) \/ (0 < w /\ 0 < h)) by lia.
  destruct Hz as [Hz|[W0 H0]]; [left|right].
  - split; [split; assumption|]. split; [assumption|]. split; [assumption|].
    rewrite Er. unfold call_converter.
    rewrite (bind_eq T m _ _ _ (converter_empty T A slack impl HI w h src dst _ _ _ _ m Hz Vs Vd Hsup _ _)).
    reflexivity.
  - split; [split; assumption|]. auto.
Qed.

(** Images that are inside of their buffers are never accessed out of bounds. *)
Lemma contained_ok w h src dst sb db :
  well_formed (usz T) w h src dst sb db ->
  (forall w0, 0 <= slack_of slack src dst w0) ->
  image_in (slack_of slack src dst w) src w h sb -> image_in 0 dst w h db ->
  (both_rgb src dst = true -> rows_apart src w h /\ rows_apart dst w h) ->
  exists o m', convert impl T w h src dst sb db = Ok o m'.
Proof.
  intros HW Hs0 Is Id Hr.
  destruct (convert_first w h src dst sb db HW) as [C|[C|[C|C]]];
    try (destruct C as (? & ->) || destruct C as (? & ? & ->) || destruct C as (? & ? & ? & ->); eauto).
  destruct C as ((Vs & Vd) & Hsup & W0 & H0).
  destruct (format_planes_u32 _ _ _ _ _ _ _ HW) as [Us Ud].
  destruct HW as (W & H & _ & _ & Ss & Sd & Bs & Bd).
  pose proof (isize_usz T HT) as [I1 I2].
  assert (HO : sizes_ok T src dst w h).
  { split.
    - eapply image_in_overflow with (s := slack_of slack src dst w); eauto; try apply Vs.
      intros i; apply buffers_len; auto.
    - eapply image_in_overflow with (s := 0); eauto; try apply Vd; try lia.
      intros i; apply buffers_len; auto. }
  destruct (convert_rust_cases T HT A slack impl HI w h W H src dst sb db Bd Ss Sd Bs Us Ud HO)
    as [C|[C|[C|[C|[C|C]]]]]; try (destruct C as (_ & _ & _ & _ & _ & _ & ->); eauto);
    try (destruct C as (_ & _ & _ & _ & _ & ->); eauto); try (exfalso; intuition (congruence || lia)).
  destruct C as (_ & _ & _ & _ & _ & _ & _ & C & _).
  destruct (C Is Id Hr) as (after & -> & _). eauto.
Qed.

(** A successful call has converted the image. *)
Lemma success_converted w h src dst sb db m' :
  well_formed (usz T) w h src dst sb db -> 0 < w -> 0 < h ->
  0 <= slack_of slack src dst w -> image_in (slack_of slack src dst w) src w h sb ->
  (both_rgb src dst = true -> rows_apart src w h) -> laid_out dst w h db ->
  convert impl T w h src dst sb db = Ok Success m' ->
  exists after, m' = Mem sb after /\ converted (A (i_pf src) (i_pf dst) w) src dst w h sb db after.
Proof.
  intros HW W0 H0 S0 Is Rs [Id Rd] Er.
  destruct (convert_first w h src dst sb db HW) as [C|[C|[C|C]]];
    try (exfalso; intuition (congruence || lia)).
  destruct C as ((Vs & Vd) & Hsup & _).
  destruct (format_planes_u32 _ _ _ _ _ _ _ HW) as [Us Ud].
  destruct HW as (W & H & _ & _ & Ss & Sd & Bs & Bd).
  assert (HO : sizes_ok T src dst w h).
  { split.
    - eapply image_in_overflow with (s := slack_of slack src dst w); eauto; try apply Vs.
      intros i; apply buffers_len; auto. destruct (isize_usz T HT); lia.
    - eapply image_in_overflow with (s := 0); eauto; try apply Vd; try lia.
      intros i; apply buffers_len; auto. destruct (isize_usz T HT); lia. }
  destruct (convert_rust_cases T HT A slack impl HI w h W H src dst sb db Bd Ss Sd Bs Us Ud HO)
    as [C|[C|[C|[C|[C|C]]]]]; try (exfalso; intuition (congruence || lia)).
  destruct C as (_ & _ & _ & _ & _ & _ & _ & _ & C).
  destruct (C Is Id Rs Rd) as (after & E & HC). rewrite E in Er. injection Er as <-. eauto.
Qed.

(** Calls following the documentation are not answered by an error. *)
Lemma documented_accepted w h src dst sb db e m' :
  documented_call (usz T) w h src dst sb db -> convert impl T w h src dst sb db <> Ok (Err e) m'.
Proof.
  intros (HW & W0 & H0 & Vs & Vd & Hsup & Es & Ed & Fs & Fd).
  destruct (format_planes_u32 _ _ _ _ _ _ _ HW) as [Us Ud].
  destruct HW as (W & H & _ & _ & Ss & Sd & Bs & Bd).
  assert (Is : image_in 0 src w h sb) by (apply image_fits_in; auto; apply Vs).
  assert (Id : image_in 0 dst w h db) by (apply image_fits_in; auto; apply Vd).
  assert (HO : sizes_ok T src dst w h).
  { split; eapply image_in_overflow with (s := 0); eauto; try apply Vs; try apply Vd; try lia;
      intros i; apply buffers_len; auto; destruct (isize_usz T HT); lia. }
  destruct (convert_rust_cases T HT A slack impl HI w h W H src dst sb db Bd Ss Sd Bs Us Ud HO)
    as [C|[C|[C|[C|[C|C]]]]]; try (exfalso; intuition (congruence || lia)).
  - exfalso. destruct C as (_ & _ & _ & _ & _ & C & _). revert C.
    unfold size_check. rewrite (image_fits_accepted T _ src w h sb), (image_fits_accepted T _ dst w h db);
      auto; try (apply Vs || apply Vd || lia); try discriminate;
      unfold both_rgb; intros Hb; apply andb_true_iff in Hb; apply Hb.
  - destruct C as (_ & _ & _ & _ & _ & _ & C & _). apply C.
Qed.

(** What the size checks establish, when they do. *)
Lemma accepted_fits w h src dst sb db :
  well_formed (usz T) w h src dst sb db -> sizes_ok T src dst w h -> 0 < w -> 0 < h ->
  (forall e m', convert impl T w h src dst sb db <> Ok (Err e) m') ->
  both_rgb src dst = false ->
  (forall im bufs, im = src /\ bufs = sb \/ im = dst /\ bufs = db ->
   forall g, In g (image_planes im w h) -> easy_plane g -> plane_in 0 bufs g) /\
  enough_planes src sb /\ enough_planes dst db.
Proof.
  intros HW HO W0 H0 Er Hb.
  destruct (format_planes_u32 _ _ _ _ _ _ _ HW) as [Us Ud].
  destruct HW as (W & H & _ & _ & Ss & Sd & Bs & Bd).
  destruct (convert_rust_cases T HT A slack impl HI w h W H src dst sb db Bd Ss Sd Bs Us Ud HO)
    as [C|[C|[C|[C|[C|C]]]]]; try (exfalso; intuition (congruence || lia)).
  destruct C as ((Vs & Vd) & _ & _ & _ & En & C & _). split; [|exact En].
  unfold size_check in C. rewrite Hb in C. apply andb_true_iff in C. destruct C as [C1 C2].
  intros im bufs [[-> ->]|[-> ->]]; [apply accepted_plane; auto; apply Vs|apply accepted_plane; auto; apply Vd].
Qed.
End Generic.

Lemma documented_in usz w h src dst sb db : documented_call usz w h src dst sb db -> image_in 0 src w h sb.
Proof.
  intros (_ & W0 & H0 & Vs & _ & _ & _ & _ & Fs & _). apply image_fits_in; auto. apply Vs.
Qed.

Lemma documented_laid_out usz w h src dst sb db : documented_call usz w h src dst sb db ->
  laid_out src w h sb /\ laid_out dst w h db.
Proof.
  intros (_ & W0 & H0 & Vs & Vd & _ & _ & _ & Fs & Fd).
  unfold laid_out. split; apply image_fits_in; auto; (apply Vs || apply Vd).
Qed.
