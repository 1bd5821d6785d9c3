(** Exactly when a conversion succeeds. *)
From Coq Require Import ZArith List Bool Lia ZifyBool ZifyNat.
Import ListNotations.
From Verif Require Import Base Fmt Common Scalar Wrappers LibFacts Vector CpuInfo Lib Sets Spec SimdSpec SetSpec ApiSpec Api
  AcceptSpec ReachSpec ConvProofs ApiProofs ConvertProofs FinalProofs ResultFacts PadFacts PropFacts CApiFacts SetProofs CallFacts
  AcceptFacts ExactFacts ReachFacts.
Open Scope Z_scope.
Ltac Zify.zify_post_hook ::= Z.div_mod_to_equations.

Lemma read_in_eq set src dst w h sb :
  colors_in src w h sb -> (image_in 0 src w h sb -> room set src dst w h sb) ->
  (i_pf src = Bgra -> image_in (-1) src w h sb -> reads_alpha set (i_pf dst) w = true -> image_in 0 src w h sb) ->
  read_in set src dst w h sb.
Proof.
  unfold colors_in, room, read_in, last_read. destruct (i_pf src); auto.
  intros C _ A. destruct (reads_alpha set (i_pf dst) w); auto.
Qed.

Section Inside.
Variable set : instruction_set.
Variable T : target.
Hypothesis HT : is_target T.
Variables (w h : Z) (src dst : image) (sb db : list (list Z)).
Hypothesis HW : well_formed (usz T) w h src dst sb db.
Hypothesis (W0 : 0 < w) (H0 : 0 < h).
Hypothesis (Rs : rows_apart src w h) (Rd : rows_apart dst w h).
Hypothesis (Xs : extent_below (isize_max T) src w h) (Xd : extent_below (isize_max T) dst w h).

Lemma wf_parts : 0 <= w < 2 ^ 32 /\ 0 <= h < 2 ^ 32 /\ planes_u32 src /\ planes_u32 dst /\
  strides_below (usz T) src /\ strides_below (usz T) dst /\ buffers_ok (isize_max T) sb /\ buffers_ok (isize_max T) db.
Proof. destruct HW as (A & B & C & D & E & F & G & I). repeat split; auto; try apply A; try apply B; try apply C; try apply D. Qed.

Lemma filled_wf f u : (forall n, 0 <= f n <= 255) -> (forall n, 0 <= u n <= 255) ->
  well_formed (usz T) w h src dst (filled (isize_max T) f sb) (filled (isize_max T) u db).
Proof.
  intros F U. destruct HW as (A & B & C & D & E & G & I & J). repeat split; auto; try apply A; try apply B; try apply C; try apply D;
    apply filled_ok; auto.
Qed.

Lemma filled_below f bufs n : buffers_ok (isize_max T) bufs -> buf_len (filled (isize_max T) f bufs) n < usz T.
Proof.
  intros B. destruct (isize_usz T HT) as (Z1 & Z2 & Z3). pose proof (buffers_len (isize_max T) bufs n ltac:(lia) B) as Bn.
  destruct (Nat.lt_ge_cases n (length bufs)) as [Hn|Hn].
  - rewrite filled_len by auto. lia.
  - unfold buf_len. rewrite nth_overflow by (rewrite filled_length; exact Hn). cbn. lia.
Qed.

Lemma eff_ok im i row : im = src \/ im = dst -> 0 <= row -> 0 <= eff_stride (i_strides im) i row.
Proof. destruct wf_parts as (_ & _ & _ & _ & S & D & _). intros [-> | ->] R; eapply eff_nonneg; eauto. Qed.

Lemma cols_any : is_rgb (i_pf src) = false -> supported (i_pf src) (i_pf dst) = true -> forall x, 0 <= x ->
  exists wrap : bool, ar_rgb (set_cols set (i_pf src) (i_pf dst) w x) = if wrap then ycc_to_rgb_wrap else ycc_to_rgb.
Proof.
  intros K S x Hx. assert (Kd : is_rgb (i_pf dst) = true) by (destruct (i_pf src), (i_pf dst); try discriminate K; try discriminate S; reflexivity).
  exists (x <? vector_part set (i_pf src) (i_pf dst) w). rewrite cols_rgb by auto. destruct (_ <? _); reflexivity.
Qed.

Lemma from_runs after : valid_image src w h -> valid_image dst w h -> supported (i_pf src) (i_pf dst) = true ->
  enough_planes src sb -> enough_planes dst db ->
  (forall f u, (forall n, 0 <= f n <= 255) -> (forall n, 0 <= u n <= 255) ->
   let sb2 := filled (isize_max T) f sb in let db2 := filled (isize_max T) u db in
   image_in 0 src w h sb2 -> image_in 0 dst w h db2 ->
   exists after2, converted (set_cols set (i_pf src) (i_pf dst) w) src dst w h sb2 db2 after2 /\
     forall n, nth n after2 [] = nth n after [] ++ nth n (pads (isize_max T) u db) []) ->
  image_in 0 dst w h db /\ colors_in src w h sb.
Proof.
  intros Vs Vd Hs Es Ed Run. destruct wf_parts as (A & B & Us & Ud & Ss & Sd & Bs & Bd). destruct (isize_usz T HT) as (Z1 & Z2 & Z3).
  assert (Z0 : 0 <= isize_max T) by lia. set (A0 := set_cols set (i_pf src) (i_pf dst) w) in *.
  assert (K1 : forall x, ar_luma (A0 x) = luma) by (intros; apply cols_luma).
  assert (K2 : is_rgb (i_pf src) = false -> forall x, 0 <= x ->
    exists wrap : bool, ar_rgb (A0 x) = if wrap then ycc_to_rgb_wrap else ycc_to_rgb) by (intros; apply cols_any; auto).
  split.
  - exact (dst_inside w h src dst (isize_max T) A0 W0 H0 Vs Vd Xs Xd eff_ok K1 K2 sb db after Bs Bd Z0 Es Ed Run).
  - destruct (is_rgb (i_pf src)) eqn:K.
    + exact (packed_src_inside w h src dst (isize_max T) A0 W0 H0 Vs Vd Hs Xs Xd eff_ok K1
               (fun Q => ltac:(exfalso; rewrite K in Q; discriminate Q)) sb db after Bs Bd Z0 Es Ed Run K).
    + assert (C : image_in 0 src w h sb).
      { refine (planar_src_inside w h src dst (isize_max T) A0 W0 H0 Vs Vd Hs Xs Xd eff_ok K1 _ sb db after Bs Bd Z0 Es Ed Run K).
        intros _. exact (K2 eq_refl). }
      unfold colors_in. destruct (i_pf src); try discriminate K; exact C.
Qed.

Lemma extents_ok : valid_image src w h -> valid_image dst w h -> sizes_ok T src dst w h.
Proof.
  intros Vs Vd. destruct wf_parts as (A & B & Us & Ud & Ss & Sd & Bs & Bd). destruct (isize_usz T HT) as (Z1 & Z2 & Z3).
  set (bufs := [[]; []; []] : list (list Z)).
  assert (Bb : buffers_ok (isize_max T) bufs) by (repeat constructor; cbn; lia).
  assert (P3 : forall im, valid_image im w h -> i_planes im <= Z.of_nat (length bufs)).
  { intros im (_ & V & _). cbn [length bufs]. destruct (i_pf im); cbn in V; lia. }
  assert (N : forall im, valid_image im w h -> strides_below (usz T) im -> extent_below (isize_max T) im w h -> no_overflow T im w h).
  { intros im V S X. apply (image_in_overflow T im w h (filled (isize_max T) (fun _ => 0) bufs) 0 HT W0 H0); [lia|exact S|apply V|apply V| |].
    - intros i. apply buffers_len; [lia|]. apply filled_ok; auto. intros; lia.
    - apply filled_in; auto. }
  split; apply N; auto.
Qed.

(** The run on filled buffers. *)
Lemma filled_convert f u : valid_image src w h -> valid_image dst w h ->
  enough_planes src sb -> enough_planes dst db ->
  (forall n, 0 <= f n <= 255) -> (forall n, 0 <= u n <= 255) ->
  let sb2 := filled (isize_max T) f sb in let db2 := filled (isize_max T) u db in
  (forall m, convert (converters set) T w h src dst sb2 db2 = Ok Success m -> 
     converted (set_cols set (i_pf src) (i_pf dst) w) src dst w h sb2 db2 (dsts m)) /\
  (forall e, convert (converters set) T w h src dst sb2 db2 = Fault e -> e = OOB_read).
Proof.
  intros Vs Vd Es Ed F U sb2 db2. destruct wf_parts as (A & B & Us & Ud & Ss & Sd & Bs & Bd). destruct (isize_usz T HT) as (Z1 & Z2 & Z3).
  pose proof (filled_wf f u F U) as HW2. fold sb2 db2 in HW2.
  assert (Is : image_in 0 src w h sb2) by (apply filled_in; auto; apply Es).
  assert (Id : image_in 0 dst w h db2) by (apply filled_in; auto; apply Ed).
  split.
  - intros m E. apply (success_conv set T w h src dst sb2 db2 m). exact (conj HT (conj HW2 (conj W0 (conj H0 (conj (conj Is Rs) (conj (conj Id Rd) E)))))).
  - intros e E. destruct (any_contained set T w h src dst sb2 db2 HT HW2 Is Id (fun _ => conj Rs Rd)) as [(o & m & Q)|[Q _]]; congruence.
Qed.

Lemma rust_extends f u :
  match convert (converters set) T w h src dst sb db with
  | Ok (Err _) _ => True
  | Ok Success m1 => exists m2, convert (converters set) T w h src dst (filled (isize_max T) f sb) (filled (isize_max T) u db) = Ok Success m2 /\
      srcs m1 = sb /\ forall n, nth n (dsts m2) [] = nth n (dsts m1) [] ++ nth n (pads (isize_max T) u db) []
  | Fault OOB_read | Fault OOB_write => True
  | Fault e => convert (converters set) T w h src dst (filled (isize_max T) f sb) (filled (isize_max T) u db) = Fault e
  end.
Proof.
  destruct wf_parts as (A & B & Us & Ud & Ss & Sd & Bs & Bd).
  apply (convert_extends T HT set w h src dst A B Us Ud Ss Sd W0 H0 Rs Rd Xs Xd sb db (pads (isize_max T) f sb) (pads (isize_max T) u db));
    try apply pads_length; intros n; apply filled_below; auto.
Qed.

Lemma success_parts m : convert (converters set) T w h src dst sb db = Ok Success m ->
  valid_image src w h /\ valid_image dst w h /\ supported (i_pf src) (i_pf dst) = true /\
  enough_planes src sb /\ enough_planes dst db.
Proof.
  intros E. destruct wf_parts as (A & B & Us & Ud & Ss & Sd & Bs & Bd).
  assert (V : valid_image src w h /\ valid_image dst w h /\ supported (i_pf src) (i_pf dst) = true).
  { destruct (convert_image_cases (converters set) w h src (option_map arr_of (i_strides src)) (arr_of (rust_slices Src sb))
              dst (option_map arr_of (i_strides dst)) (arr_of (rust_slices Dst db)) T (Mem sb db) Us Ud)
    as [[_ F]|[(_ & _ & _ & F)|(V & V' & S & _)]]; auto; unfold convert in E; congruence. }
  destruct V as (Vs & Vd & Hs). pose proof (extents_ok Vs Vd) as HO.
  destruct (set_cases set T HT w h src dst sb db HW HO)
    as [C|[C|[C|[C|[C|C]]]]]; try (exfalso; intuition (congruence || lia)). tauto.
Qed.

Lemma success_inside m : convert (converters set) T w h src dst sb db = Ok Success m ->
  image_in 0 dst w h db /\ colors_in src w h sb.
Proof.
  intros E. destruct (success_parts m E) as (Vs & Vd & Hs & Es & Ed).
  apply (from_runs (dsts m)); auto. intros f u F U sb2 db2 I1 I2.
  pose proof (rust_extends f u) as R. rewrite E in R. destruct R as (m2 & E2 & _ & N). fold sb2 db2 in E2.
  exists (dsts m2). split; [|exact N]. apply (filled_convert f u); auto.
Qed.

Lemma success_read m : convert (converters set) T w h src dst sb db = Ok Success m ->
  image_in 0 dst w h db /\ read_in set src dst w h sb.
Proof.
  intros E. destruct (success_inside m E) as [Id C]. split; [exact Id|]. apply read_in_eq; [exact C| |].
  - intros Is. eapply success_room; eauto.
  - intros. eapply success_alpha; eauto.
Qed.

Lemma fault_outside e : convert (converters set) T w h src dst sb db = Fault e -> e = OOB_read \/ e = OOB_write.
Proof.
  intros E. destruct wf_parts as (A & B & Us & Ud & Ss & Sd & Bs & Bd).
  assert (V : valid_image src w h /\ valid_image dst w h).
  { destruct (convert_image_cases (converters set) w h src (option_map arr_of (i_strides src)) (arr_of (rust_slices Src sb))
              dst (option_map arr_of (i_strides dst)) (arr_of (rust_slices Dst db)) T (Mem sb db) Us Ud)
    as [[_ F]|[(_ & _ & _ & F)|(V & V' & S & _)]]; auto; unfold convert in E; congruence. }
  destruct V as (Vs & Vd). pose proof (extents_ok Vs Vd) as HO.
  destruct (set_cases set T HT w h src dst sb db HW HO)
    as [C|[C|[C|[C|[C|C]]]]]; try (exfalso; intuition congruence).
  destruct C as (_ & _ & _ & _ & (Es & Ed) & _).
  assert (Z : forall n : nat, 0 <= (fun _ : nat => 0) n <= 255) by (intros; lia).
  pose proof (rust_extends (fun _ => 0) (fun _ => 0)) as R. rewrite E in R.
  destruct (filled_convert (fun _ => 0) (fun _ => 0) Vs Vd Es Ed Z Z) as [_ Q].
  destruct e; auto; specialize (Q _ R); discriminate Q.
Qed.

(** All cases of a call with a valid description. *)
Lemma exact_cases : valid_image src w h -> valid_image dst w h -> supported (i_pf src) (i_pf dst) = true ->
  let r := convert (converters set) T w h src dst sb db in
  (~ buffers_taken src dst w h sb db -> r = Ok (Err NotEnoughData) (Mem sb db)) /\
  (buffers_taken src dst w h sb db -> image_in 0 dst w h db -> read_in set src dst w h sb ->
   exists after, r = Ok Success (Mem sb after) /\
     converted (set_cols set (i_pf src) (i_pf dst) w) src dst w h sb db after) /\
  (buffers_taken src dst w h sb db -> ~ (image_in 0 dst w h db /\ read_in set src dst w h sb) ->
   r = Fault OOB_read \/ r = Fault OOB_write).
Proof.
  intros Vs Vd Hs r. pose proof (extents_ok Vs Vd) as HO.
  assert (ACC : size_check w h src dst sb db = true <->
      image_taken (is_rgb (i_pf src) && is_rgb (i_pf dst)) src w h sb /\
      image_taken (is_rgb (i_pf src) && is_rgb (i_pf dst)) dst w h db).
  { unfold size_check. rewrite andb_true_iff, !image_taken_accepted. reflexivity. }
  assert (OUT : buffers_taken src dst w h sb db -> ~ (image_in 0 dst w h db /\ read_in set src dst w h sb) ->
   (forall e m', r <> Ok (Err e) m') -> r = Fault OOB_read \/ r = Fault OOB_write).
  { intros _ N Ne. destruct r as [[|e] m|e] eqn:E; [exfalso; apply N; apply (success_read m); exact E|exfalso; eapply Ne; reflexivity|].
    destruct (fault_outside e E) as [-> | ->]; auto. }
  unfold buffers_taken in *. cbv zeta in *.
  destruct (set_cases set T HT w h src dst sb db HW HO)
    as [C|[C|[C|[C|[C|C]]]]]; try (exfalso; intuition (congruence || lia)).
  - destruct C as (_ & _ & _ & _ & En & E). split; [intros _; exact E|]. split; intros (? & ? & _); exfalso; apply En; auto.
  - destruct C as (_ & _ & _ & _ & En & Ck & E). split; [intros _; exact E|].
    split; intros (_ & _ & T1); exfalso; apply ACC in T1; congruence.
  - destruct C as (_ & _ & _ & _ & (En1 & En2) & Ck & Ne & _ & C).
    split; [intros N; exfalso; apply N; apply ACC in Ck; tauto|]. split.
    + intros _ Id R. unfold read_in in R. destruct wf_parts as (A & B & Us & Ud & Ss & Sd & Bs & Bd).
      destruct (convert_rust_cases T HT (set_cols set) (exact_slack set) (converters set) (set_ok_exact set T) w h A B
                  src dst sb db Bd Ss Sd Bs Us Ud HO) as [D|[D|[D|[D|[D|D]]]]]; try (exfalso; intuition (congruence || lia)).
      destruct D as (_ & _ & _ & _ & _ & _ & _ & _ & D). rewrite (slack_of_exact set src dst w Hs) in D. auto.
    + intros Tk N. exact (OUT Tk N Ne).
Qed.

(** *** C callers *)
Lemma c_extends error f u : enough_planes src sb -> enough_planes dst db ->
  match c_convert (converters set) T w h src dst sb db error with
  | Ok (C_Err, _) _ => True
  | Ok (C_Ok, e) m1 => exists m2, c_convert (converters set) T w h src dst (filled (isize_max T) f sb) (filled (isize_max T) u db) error = Ok (C_Ok, e) m2 /\
      srcs m1 = sb /\ forall n, nth n (dsts m2) [] = nth n (dsts m1) [] ++ nth n (pads (isize_max T) u db) []
  | Fault OOB_read | Fault OOB_write => True
  | Fault e => c_convert (converters set) T w h src dst (filled (isize_max T) f sb) (filled (isize_max T) u db) error = Fault e
  end.
Proof.
  destruct wf_parts as (A & B & Us & Ud & Ss & Sd & Bs & Bd).
  apply (c_convert_extends T HT set w h src dst A B Us Ud Ss Sd W0 H0 Rs Rd Xs Xd sb db (pads (isize_max T) f sb) (pads (isize_max T) u db));
    try apply pads_length; intros n; apply filled_below; auto.
Qed.

(** With the bytes that registers cover after the image. *)
Hypothesis Xr : extent_below (isize_max T - over_read set (i_pf src) (i_pf dst) w) src w h.
Hypothesis (Vs : valid_image src w h) (Vd : valid_image dst w h) (Hs : supported (i_pf src) (i_pf dst) = true).
Hypothesis (Es : enough_planes src sb) (Ed : enough_planes dst db).
Hypothesis (Ts : stride_in (fun _ => isize_max T) src w h) (Td : stride_in (fun _ => isize_max T) dst w h).

Lemma filled_room f : room set src dst w h (filled (isize_max T) f sb).
Proof.
  destruct wf_parts as (A & B & Us & Ud & Ss & Sd & Bs & Bd). destruct (isize_usz T HT) as (Z1 & Z2 & Z3).
  unfold room, image_in, extent_below in *. rewrite Forall_forall in *. intros g G. specialize (Xr g G). cbv beta in Xr.
  unfold plane_in. rewrite filled_len; [lia|exact (plane_buf src w h sb g Vs (proj1 Es) G)|]. apply buffers_len; [lia|exact Bs].
Qed.

Lemma filled_c error f u : (forall n, 0 <= f n <= 255) -> (forall n, 0 <= u n <= 255) ->
  let sb2 := filled (isize_max T) f sb in let db2 := filled (isize_max T) u db in
  exists after, c_convert (converters set) T w h src dst sb2 db2 error = Ok (C_Ok, error) (Mem sb2 after) /\
    converted (set_cols set (i_pf src) (i_pf dst) w) src dst w h sb2 db2 after.
Proof.
  intros F U sb2 db2. destruct wf_parts as (A & B & Us & Ud & Ss & Sd & Bs & Bd). destruct (isize_usz T HT) as (Z1 & Z2 & Z3).
  assert (Z0 : 0 <= isize_max T) by lia.
  pose proof (filled_wf f u F U) as HW2. fold sb2 db2 in HW2.
  assert (Is : image_in 0 src w h sb2) by (apply filled_in; auto; apply Es).
  assert (Id : image_in 0 dst w h db2) by (apply filled_in; auto; apply Ed).
  apply c_laid_out; auto.
  - destruct Es as [E1 E2]. split; [unfold sb2; rewrite filled_length; exact E1|exact E2].
  - destruct Ed as [E1 E2]. split; [unfold db2; rewrite filled_length; exact E1|exact E2].
  - split; auto.
  - split; auto.
  - apply filled_room.
Qed.

Lemma c_success_inside error e m : c_convert (converters set) T w h src dst sb db error = Ok (C_Ok, e) m ->
  image_in 0 dst w h db /\ colors_in src w h sb.
Proof.
  intros E. apply (from_runs (dsts m)); auto. intros f u F U sb2 db2 I1 I2.
  pose proof (c_extends error f u Es Ed) as R. rewrite E in R. destruct R as (m2 & E2 & _ & N). fold sb2 db2 in E2.
  destruct (filled_c error f u F U) as (after & E3 & C). fold sb2 db2 in E3, C.
  exists after. split; [exact C|]. rewrite E2 in E3. injection E3 as _ ->. exact N.
Qed.

Lemma c_success_read error e m : c_convert (converters set) T w h src dst sb db error = Ok (C_Ok, e) m ->
  image_in 0 dst w h db /\ read_in set src dst w h sb.
Proof.
  intros E. destruct (c_success_inside error e m E) as [Id C]. split; [exact Id|]. apply read_in_eq; [exact C| |].
  - intros Is. eapply c_success_room; eauto.
  - intros. eapply c_success_alpha; eauto.
Qed.

Lemma c_check : c_size_check T w h src dst = true.
Proof.
  destruct wf_parts as (A & B & Us & Ud & Ss & Sd & Bs & Bd). destruct (isize_usz T HT) as (Z1 & Z2 & Z3).
  assert (Z0 : 0 <= isize_max T) by lia.
  assert (Z : forall n : nat, 0 <= (fun _ : nat => 0) n <= 255) by (intros; lia).
  unfold c_size_check. apply andb_true_iff. split.
    - apply laid_out_taken with (bufs := filled (isize_max T) (fun _ => 0) sb); [exact W0|exact H0|apply Vs| |
        intros i; apply (buffers_len (isize_max T)); [lia|apply filled_ok; auto] | |exact Ts].
      + unfold both_rgb. intros Q. apply andb_true_iff in Q. tauto.
      + split; [|exact Rs]. apply filled_in; auto. apply Es.
    - apply laid_out_taken with (bufs := filled (isize_max T) (fun _ => 0) db); [exact W0|exact H0|apply Vd| |
        intros i; apply (buffers_len (isize_max T)); [lia|apply filled_ok; auto] | |exact Td].
      + unfold both_rgb. intros Q. apply andb_true_iff in Q. tauto.
      + split; [|exact Rd]. apply filled_in; auto. apply Ed.
Qed.

Lemma c_no_error error e m : c_convert (converters set) T w h src dst sb db error <> Ok (C_Err, e) m.
Proof.
  intros E. destruct wf_parts as (A & B & Us & Ud & Ss & Sd & Bs & Bd). destruct (isize_usz T HT) as (Z1 & Z2 & Z3).
  pose proof (extents_ok Vs Vd) as HO.
  pose proof c_check as Ck.
  rewrite (c_convert_eq T) in E; try assumption; [|apply Es|apply Ed].
  pose proof (valid_planes_le _ _ (proj1 (proj2 Vs))) as Ps. pose proof (valid_planes_le _ _ (proj1 (proj2 Vd))) as Pd.
  destruct (convert_views T HT (set_cols set) (set_slack set) (converters set) (set_ok set T) w h A B src dst sb db
    _ _ _ _ (fun _ => isize_max T) (fun _ => isize_max T)
    (buffers_bytes _ _ Bs) W0 H0
    (strides_view_c T HT src sb (proj1 (proj2 Vs)) Es Ss)
    (strides_view_c T HT dst db (proj1 (proj2 Vd)) Ed Sd)
    (slices_view_c T HT Src sb (i_planes src) ltac:(lia) Bs)
    (slices_view_c T HT Dst db (i_planes dst) ltac:(lia) Bd)
    Vs Vd Hs HO (fun _ => conj (Z.le_refl _) (Z.le_refl _))) as (_ & V & _).
  destruct (V Ck) as [_ N].
  destruct (convert_image _ _ _ _ _ _ _ _ _ _ _) as [[|e'] m'|] eqn:Q; [discriminate E|exact (N _ _ _ Q)|discriminate E].
Qed.

Lemma c_fault_outside error e : c_convert (converters set) T w h src dst sb db error = Fault e -> e = OOB_read \/ e = OOB_write.
Proof.
  intros E. assert (Z : forall n : nat, 0 <= (fun _ : nat => 0) n <= 255) by (intros; lia).
  pose proof (c_extends error (fun _ => 0) (fun _ => 0) Es Ed) as R. rewrite E in R.
  destruct (filled_c error _ _ Z Z) as (after & Q & _). cbv zeta in Q.
  destruct e; auto; rewrite Q in R; discriminate R.
Qed.

Lemma c_exact_cases error :
  let r := c_convert (converters set) T w h src dst sb db error in
  (image_in 0 dst w h db -> read_in set src dst w h sb ->
   exists after, r = Ok (C_Ok, error) (Mem sb after) /\
     converted (set_cols set (i_pf src) (i_pf dst) w) src dst w h sb db after) /\
  (~ (image_in 0 dst w h db /\ read_in set src dst w h sb) -> r = Fault OOB_read \/ r = Fault OOB_write).
Proof.
  intros r. split.
  - intros Id R. unfold read_in in R. pose proof (extents_ok Vs Vd) as HO. destruct wf_parts as (A & B & Us & Ud & Ss & Sd & Bs & Bd).
    pose proof (c_convert_cases T HT (set_cols set) (exact_slack set) (converters set) (set_ok_exact set T) w h A B
      src dst sb db Bd Ss Sd Bs error Us Ud HO Es Ed) as C. cbv zeta in C. rewrite c_check in C.
    rewrite (slack_of_exact set src dst w Hs) in C.
    destruct C as [C|[C|[C|[C|C]]]]; try (exfalso; intuition (congruence || lia)).
    destruct C as (_ & _ & _ & _ & _ & C). apply C; auto.
  - intros N. destruct r as [[[|] e] m|e] eqn:E.
    + exfalso. apply N. eapply c_success_read. exact E.
    + exfalso. eapply c_no_error. exact E.
    + destruct (c_fault_outside error e E) as [-> | ->]; auto.
Qed.
End Inside.

Lemma c_exact set T : is_target T -> forall w h src dst sb db,
  well_formed (usz T) w h src dst sb db -> 0 < w -> 0 < h ->
  rows_apart src w h -> rows_apart dst w h ->
  extent_below (usz T / 2 - 1 - over_read set (i_pf src) (i_pf dst) w) src w h -> extent_below (usz T / 2 - 1) dst w h ->
  valid_image src w h -> valid_image dst w h -> supported (i_pf src) (i_pf dst) = true ->
  enough_planes src sb -> enough_planes dst db ->
  stride_in (fun _ => usz T / 2 - 1) src w h -> stride_in (fun _ => usz T / 2 - 1) dst w h -> forall error,
  let r := c_convert (converters set) T w h src dst sb db error in
  (image_in 0 dst w h db -> read_in set src dst w h sb ->
   exists after, r = Ok (C_Ok, error) (Mem sb after) /\
     converted (set_cols set (i_pf src) (i_pf dst) w) src dst w h sb db after) /\
  (~ (image_in 0 dst w h db /\ read_in set src dst w h sb) -> r = Fault OOB_read \/ r = Fault OOB_write).
Proof.
  intros. apply c_exact_cases; auto.
  match goal with X : extent_below _ src w h |- _ => unfold extent_below in *; eapply Forall_impl; [|exact X] end.
  intros g Q. pose proof (over_read_nonneg set (i_pf src) (i_pf dst) w). unfold isize_max in *. cbv beta in *. lia.
Qed.
