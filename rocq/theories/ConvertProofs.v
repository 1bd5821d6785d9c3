(** [convert_image] as a whole, called from Rust and from C. *)
From Coq Require Import ZArith List Bool Lia ZifyBool ZifyNat.
Import ListNotations.
From Verif Require Import Base Exec Area Fmt Dispatch Common Scalar Wrappers Lib Spec ApiSpec Api PixelFacts
  KernelBase WrapperFacts ConvProofs LibFacts ApiProofs FinalProofs.
Open Scope Z_scope.
Ltac Zify.zify_post_hook ::= Z.div_mod_to_equations.

Lemma u32_planes pf n : valid_num_planes pf n -> u32 (n - 1) = n - 1.
Proof. intros H. apply valid_planes_le in H. unfold u32. rewrite Z.mod_small; lia. Qed.

Lemma valid_planes_u32 im w h : valid_image im w h -> planes_u32 im.
Proof. intros (_ & H & _). apply valid_planes_le in H. unfold planes_u32. lia. Qed.

(** Neither image is larger than what the code can count. *)
Definition sizes_ok (T : target) (src dst : image) (w h : Z) : Prop :=
  no_overflow T src w h /\ no_overflow T dst w h.

Section Convert.
Variable T : target.
Hypothesis HT : is_target T.
Variable A : pixel_format -> pixel_format -> Z -> columns.
Variable slack : pixel_format -> sampler -> Z -> Z.
Variable impl : conv -> converter.
Hypothesis HI : impl_ok T A slack impl.
Variables w h : Z.
Hypothesis Hw : 0 <= w < 2 ^ 32.
Hypothesis Hh : 0 <= h < 2 ^ 32.
Variables src dst : image.

Lemma u32_lt_usz x : x < 2 ^ 32 -> x < usz T.
Proof. destruct HT as [[-> _]|[-> _]]; lia. Qed.

(** With arguments that hold the strides and the buffers. *)
Lemma convert_views ms ds0 ss ds sb db sl dln :
  bytes_ok ms -> 0 < w -> 0 < h ->
  strides_view T (strides_or_default ss) (i_strides src) (i_planes src) ->
  strides_view T (strides_or_default ds) (i_strides dst) (i_planes dst) ->
  slices_view T sb Src ms sl (i_planes src) ->
  slices_view T db Dst ds0 dln (i_planes dst) ->
  valid_image src w h -> valid_image dst w h -> supported (i_pf src) (i_pf dst) = true ->
  sizes_ok T src dst w h ->
  (both_rgb src dst = true -> sl 0%nat <= isize_max T /\ dln 0%nat <= isize_max T) ->
  let r := convert_image impl w h (format_of src) ss sb (format_of dst) ds db T in
  let acc := image_accepted (both_rgb src dst) sl src w h && image_accepted (both_rgb src dst) dln dst w h in
  (acc = false -> forall m, r m = Ok (Err NotEnoughData) m) /\
  (acc = true -> (forall m, r m <> Ok (Err InvalidValue) m /\
                            r m <> Ok (Err InvalidOperation) m) /\
     (forall m e m', r m <> Ok (Err e) m')) /\
  (acc = true ->
   image_in (slack_of slack src dst w) src w h ms -> image_in 0 dst w h ds0 ->
   (both_rgb src dst = true -> rows_apart src w h /\ rows_apart dst w h) ->
   exists after, r (Mem ms ds0) = Ok Success (Mem ms after) /\
                 map (@length Z) after = map (@length Z) ds0) /\
  (acc = true ->
   image_in (slack_of slack src dst w) src w h ms -> image_in 0 dst w h ds0 ->
   (both_rgb src dst = true -> rows_apart src w h) -> rows_apart dst w h ->
   (forall g, In g (image_planes dst w h) -> 0 <= g_stride g) ->
   exists after, r (Mem ms ds0) = Ok Success (Mem ms after) /\ converted (A (i_pf src) (i_pf dst) w) src dst w h ms ds0 after).
Proof.
  intros HB W H Vss Vds Vsb Vdb Vs Vd Hsup [Os Od] Hlim r acc.
  destruct (converter_ok T HT A slack impl HI ms ds0 w h src dst _ _ sb db sl dln HB
              (conj W (u32_lt_usz w (proj2 Hw))) (conj H (u32_lt_usz h (proj2 Hh)))
              Vss Vds Vsb Vdb Vs Vd Hsup Os Od Hlim) as (kcall & Eq & Run).
  assert (Er : forall m, r m = if acc then (kcall ;; ret Success) T m else Ok (Err NotEnoughData) m).
  { intros m. subst r. cbv beta.
    destruct (convert_image_cases impl w h src ss sb dst ds db T m
                (valid_planes_u32 _ _ _ Vs) (valid_planes_u32 _ _ _ Vd)) as [[N _]|[(_ & _ & N & _)|(_ & _ & _ & E)]];
      [tauto|congruence|].
    rewrite E. unfold call_converter.
    rewrite (u32_planes _ _ (proj1 (proj2 Vs))), (u32_planes _ _ (proj1 (proj2 Vd))).
    (unfold bind at 1; cbn [run]). rewrite Eq. fold acc. destruct acc; [|reflexivity].
    (unfold bind, ret; cbn [run]). destruct (kcall T m); reflexivity. }
  split; [|split; [|split]].
  - intros E m. rewrite Er, E. reflexivity.
  - intros E. assert (forall m e m', r m <> Ok (Err e) m').
    { intros m e m'. rewrite Er, E. (unfold bind, ret; cbn [run]). destruct (kcall T m); congruence. }
    split; auto.
  - intros E Is Id Ra.
    unfold acc in E. apply andb_true_iff in E. destruct E as [E1 E2].
    destruct (Run Is Id E1 E2 Ra) as (ws & Hx & _).
    rewrite Er. unfold acc. rewrite E1, E2. cbn [andb].
    assert (Hsh : shaped ms (map (@length Z) ds0) (Mem ms ds0)) by (split; reflexivity).
    destruct (shaped_apply ms _ ws _ Hsh) as [Q1 Q2].
    exists (dsts (apply ws (Mem ms ds0))).
    (unfold bind, ret; cbn [run]). rewrite (Hx _ Hsh). split; [|exact Q2].
    destruct (apply ws (Mem ms ds0)) as [q1 q2]. cbn [srcs dsts] in *. subst q1. reflexivity.
  - intros E Is Id Ra Rd Hst.
    unfold acc in E. apply andb_true_iff in E. destruct E as [E1 E2].
    specialize (Run Is Id E1 E2 (fun b => conj (Ra b) Rd)).
    destruct (converted_of_runs T (A (i_pf src) (i_pf dst) w) src dst w h ms ds0 (kcall ;; ret true) ltac:(lia) ltac:(lia) Hst Rd Id)
      as (after & Ec & Hc).
    { eapply runs_bind1; [exact Run|]. apply exec_ret. }
    exists after. split; [|exact Hc]. rewrite Er. unfold acc. rewrite E1, E2. cbn [andb].
    (unfold bind, ret in *; cbn [run] in *). destruct (kcall T (Mem ms ds0)) as [u m'|f]; [|discriminate].
    injection Ec as ->. reflexivity.
Qed.

(** ** Rust callers *)
Variables sb0 db0 : list (list Z).
Hypothesis Bd : buffers_ok (isize_max T) db0.
Hypothesis Ss : strides_below (usz T) src.
Hypothesis Sd : strides_below (usz T) dst.

Definition size_check : bool :=
  image_accepted (both_rgb src dst) (buf_len sb0) src w h &&
  image_accepted (both_rgb src dst) (buf_len db0) dst w h.

Lemma rust_alen mk bufs : alen (arr_of (rust_slices mk bufs)) = Z.of_nat (length bufs).
Proof. unfold arr_of, rust_slices, zlen. cbn [alen]. rewrite slices_length. reflexivity. Qed.

Lemma strides_alen o : 0 <= alen (strides_or_default (option_map arr_of o)).
Proof. destruct o; cbn [option_map strides_or_default arr_of alen]; unfold zlen; lia. Qed.

Lemma convert_rust_cases_pad : buffers_ok (isize_max T + 8) sb0 ->
  (both_rgb src dst = true -> buf_len sb0 0 <= isize_max T) -> planes_u32 src -> planes_u32 dst ->
  sizes_ok T src dst w h ->
  let valid := valid_image src w h /\ valid_image dst w h in
  let supp := supported (i_pf src) (i_pf dst) in
  let enough := enough_planes src sb0 /\ enough_planes dst db0 in
  let r := convert impl T w h src dst sb0 db0 in
  let m := Mem sb0 db0 in
  (~ valid /\ r = Ok (Err InvalidValue) m) \/
  (valid /\ supp = false /\ r = Ok (Err InvalidOperation) m) \/
  (valid /\ supp = true /\ (w = 0 \/ h = 0) /\ r = Ok Success m) \/
  (valid /\ supp = true /\ 0 < w /\ 0 < h /\ ~ enough /\ r = Ok (Err NotEnoughData) m) \/
  (valid /\ supp = true /\ 0 < w /\ 0 < h /\ enough /\ size_check = false /\ r = Ok (Err NotEnoughData) m) \/
  (valid /\ supp = true /\ 0 < w /\ 0 < h /\ enough /\ size_check = true /\
   (forall e m', r <> Ok (Err e) m') /\
   (image_in (slack_of slack src dst w) src w h sb0 -> image_in 0 dst w h db0 ->
    (both_rgb src dst = true -> rows_apart src w h /\ rows_apart dst w h) ->
    exists after, r = Ok Success (Mem sb0 after) /\ map (@length Z) after = map (@length Z) db0) /\
   (image_in (slack_of slack src dst w) src w h sb0 -> image_in 0 dst w h db0 ->
    (both_rgb src dst = true -> rows_apart src w h) -> rows_apart dst w h ->
    exists after, r = Ok Success (Mem sb0 after) /\ converted (A (i_pf src) (i_pf dst) w) src dst w h sb0 db0 after)).
Proof.
  intros Bs Bl Us Ud HO valid supp enough r m. pose proof (isize_usz T HT) as [L1 _].
  pose proof (convert_image_cases impl w h src (option_map arr_of (i_strides src)) (arr_of (rust_slices Src sb0))
                dst (option_map arr_of (i_strides dst)) (arr_of (rust_slices Dst db0)) T m Us Ud) as HC.
  cbv zeta in HC.
  match type of HC with _ /\ ?x = _ \/ _ => change x with r in HC end.
  destruct HC as [HC|[HC|HC]]; [left; exact HC|right; left; subst valid supp; tauto|].
  destruct HC as (Vs & Vd & Hsup & Er).
  do 2 right. assert (valid) by (split; assumption).
  assert (Hz : (w = 0 \/ h = 0) \/ (0 < w /\ 0 < h)) by lia.
  destruct Hz as [Hz|[W H0]].
  { left. split; [|split; [|split]]; auto. rewrite Er. unfold call_converter.
    rewrite (bind_eq T m _ _ _ (converter_empty T A slack impl HI w h src dst _ _ _ _ m Hz Vs Vd Hsup _ _)).
    reflexivity. }
  right.
  assert (Hdec : forall im bufs, {enough_planes im bufs} + {~ enough_planes im bufs}).
  { intros im bufs. unfold enough_planes.
    destruct (Z_le_dec (i_planes im) (Z.of_nat (length bufs))); [|right; tauto].
    destruct (i_strides im) as [l0|]; [|left; tauto].
    destruct (Z_le_dec (i_planes im) (Z.of_nat (length l0))); [left|right]; tauto. }
  assert (Hen : enough \/ ~ enough).
  { subst enough. destruct (Hdec src sb0), (Hdec dst db0); tauto. }
  destruct Hen as [En|En].
  - right.
    pose proof (buffers_ok_le (isize_max T) (isize_max T + 8) db0 ltac:(lia) Bd) as Bd'.
    pose proof (convert_views sb0 db0 _ _ _ _ (buf_len sb0) (buf_len db0)
      (buffers_bytes _ _ Bs) W H0
      (strides_view_rust T src sb0 HT (proj1 (proj2 Vs)) (proj1 En) Ss)
      (strides_view_rust T dst db0 HT (proj1 (proj2 Vd)) (proj2 En) Sd)
      (slices_view_rust T Src sb0 _ HT (proj1 (proj1 En)) Bs)
      (slices_view_rust T Dst db0 _ HT (proj1 (proj2 En)) Bd')
      Vs Vd Hsup HO (fun E => conj (Bl E) (buffers_len (isize_max T) db0 0 L1 Bd))) as V.
    cbv zeta in V. fold size_check in V. destruct V as (V1 & V2 & V4 & V3).
    destruct size_check eqn:Esc.
    + right. do 6 (split; [assumption || reflexivity|]). split.
      * intros e m'. apply (proj2 (V2 eq_refl)).
      * split; [apply V4; reflexivity|]. intros I1 I2 R1 R2. apply V3; auto.
        intros g. apply (planes_stride T dst w h g HT Sd ltac:(lia)).
    + left. do 6 (split; [assumption || reflexivity|]). apply V1. reflexivity.
  - left. do 5 (split; [assumption || reflexivity|]). rewrite Er. unfold call_converter.
    rewrite (u32_planes _ _ (proj1 (proj2 Vs))), (u32_planes _ _ (proj1 (proj2 Vd))).
    erewrite bind_eq; [|apply (converter_short T A slack impl HI w h src dst); auto; try lia].
    + reflexivity.
    + apply strides_alen.
    + rewrite rust_alen. lia.
    + apply strides_alen.
    + rewrite rust_alen. lia.
    + rewrite !rust_alen.
      destruct Vs as (_ & Ns & _), Vd as (_ & Nd & _). apply valid_planes_le in Ns, Nd.
      subst enough. unfold enough_planes in En.
      destruct (i_strides src), (i_strides dst); cbn [option_map strides_or_default arr_of alen] in *;
        unfold zlen in *; change (length DEFAULT_STRIDES) with 4%nat; lia.
Qed.

Hypothesis Bs : buffers_ok (isize_max T) sb0.

Lemma convert_rust_cases : planes_u32 src -> planes_u32 dst ->
  sizes_ok T src dst w h ->
  let valid := valid_image src w h /\ valid_image dst w h in
  let supp := supported (i_pf src) (i_pf dst) in
  let enough := enough_planes src sb0 /\ enough_planes dst db0 in
  let r := convert impl T w h src dst sb0 db0 in
  let m := Mem sb0 db0 in
  (~ valid /\ r = Ok (Err InvalidValue) m) \/
  (valid /\ supp = false /\ r = Ok (Err InvalidOperation) m) \/
  (valid /\ supp = true /\ (w = 0 \/ h = 0) /\ r = Ok Success m) \/
  (valid /\ supp = true /\ 0 < w /\ 0 < h /\ ~ enough /\ r = Ok (Err NotEnoughData) m) \/
  (valid /\ supp = true /\ 0 < w /\ 0 < h /\ enough /\ size_check = false /\ r = Ok (Err NotEnoughData) m) \/
  (valid /\ supp = true /\ 0 < w /\ 0 < h /\ enough /\ size_check = true /\
   (forall e m', r <> Ok (Err e) m') /\
   (image_in (slack_of slack src dst w) src w h sb0 -> image_in 0 dst w h db0 ->
    (both_rgb src dst = true -> rows_apart src w h /\ rows_apart dst w h) ->
    exists after, r = Ok Success (Mem sb0 after) /\ map (@length Z) after = map (@length Z) db0) /\
   (image_in (slack_of slack src dst w) src w h sb0 -> image_in 0 dst w h db0 ->
    (both_rgb src dst = true -> rows_apart src w h) -> rows_apart dst w h ->
    exists after, r = Ok Success (Mem sb0 after) /\ converted (A (i_pf src) (i_pf dst) w) src dst w h sb0 db0 after)).
Proof.
  intros Us Ud HO. pose proof (isize_usz T HT) as [I1 _]. apply convert_rust_cases_pad; auto.
  - eapply buffers_ok_le; [|exact Bs]. lia.
  - intros _. apply buffers_len; auto.
Qed.

(** Everything fits: the conversion succeeds. *)
Lemma convert_rust_ok :
  0 < w -> 0 < h ->
  valid_image src w h -> valid_image dst w h -> supported (i_pf src) (i_pf dst) = true ->
  enough_planes src sb0 -> enough_planes dst db0 ->
  image_fits src w h sb0 -> image_fits dst w h db0 ->
  0 <= slack_of slack src dst w ->
  image_in (slack_of slack src dst w) src w h sb0 ->
  exists after, convert impl T w h src dst sb0 db0 = Ok Success (Mem sb0 after) /\
                converted (A (i_pf src) (i_pf dst) w) src dst w h sb0 db0 after.
Proof.
  intros W H0 Vs Vd Hsup Es Ed Fs Fd Hsl Hin.
  pose proof (isize_usz T HT) as [I1 I2].
  destruct (image_fits_in src w h sb0 W H0 (proj2 (proj2 Vs)) Fs) as [Is Rs].
  destruct (image_fits_in dst w h db0 W H0 (proj2 (proj2 Vd)) Fd) as [Id Rd].
  assert (HO : sizes_ok T src dst w h).
  { split; eapply image_in_overflow with (s := 0); eauto; try lia; try apply Vs; try apply Vd;
      intros i; apply buffers_len; auto. }
  assert (Hck : size_check = true).
  { unfold size_check. apply andb_true_iff.
    split; eapply image_fits_accepted; eauto; try apply Vs; try apply Vd; try (intros; lia);
      unfold both_rgb; intros E; apply andb_true_iff in E; tauto. }
  destruct (convert_rust_cases (valid_planes_u32 _ _ _ Vs) (valid_planes_u32 _ _ _ Vd) HO)
    as [C|[C|[C|[C|[C|C]]]]]; try (exfalso; intuition (congruence || lia)).
  destruct C as (_ & _ & _ & _ & _ & _ & _ & _ & C). apply C; auto.
Qed.

(** ** C callers *)
Lemma c_planes_ok mk ptrs i n l m :
  (i + n <= length ptrs)%nat -> Forall (fun b => b = true) ptrs ->
  c_planes mk ptrs i n l T m =
  Ok (Some (l ++ map (fun k => Slice (mk k) 0 (isize_max T)) (seq i n))) m.
Proof.
  intros Hn Hp. revert i l Hn. induction n as [|n IH]; intros i l Hn; cbn [c_planes seq map].
  - rewrite app_nil_r. reflexivity.
  - rewrite nth_error_nth_some with (d := true) by lia.
    rewrite (proj1 (Forall_forall _ _) Hp _ (nth_In (n:=i) ptrs true ltac:(lia))).
    cbn [run]. rewrite IH by lia. rewrite <- app_assoc. reflexivity.
Qed.

Lemma pf_valid pf : is_pixel_format_valid (pf_u32 pf) = true.
Proof. destruct pf; reflexivity. Qed.
Lemma cs_valid cs : is_color_space_valid (cs_u32 cs) = true.
Proof. destruct cs; reflexivity. Qed.

Lemma planes_compatible_eq pf n m : are_planes_compatible pf n T m = is_compatible pf 0 0 (u32 (n - 1)) T m.
Proof.
  (unfold are_planes_compatible, is_compatible, bind; cbn [run]). destruct (index PF_SPECS pf T m); [|reflexivity].
  rewrite !Z.land_0_l, !Z.lor_0_l. reflexivity.
Qed.

Lemma planes_compatible_ok pf n m : 0 <= n < 2 ^ 32 ->
  exists b, are_planes_compatible (pf_u32 pf) n T m = Ok b m /\ (b = true <-> valid_num_planes pf n).
Proof.
  intros Hn. destruct (is_compatible_ok pf 0 0 n T m Hn) as (b & E & B).
  exists b. rewrite planes_compatible_eq. split; auto. rewrite B.
  split; [tauto|]. intros H; split; auto. destruct pf; cbn; auto.
Qed.

(** What the C entry point makes of the result. *)
Definition c_result_of (error : option (option error_kind)) (o : outcome)
  : c_result * option (option error_kind) :=
  match o with Success => (C_Ok, error) | Err e => set_error error e end.

Definition c_slices (mk : nat -> plane) (n : Z) : arr slice :=
  Arr MAX_NUMBER_OF_PLANES (map (fun k => Slice (mk k) 0 (isize_max T)) (seq 0 (Z.to_nat n))).

Lemma c_planes_check m : planes_u32 src -> planes_u32 dst ->
  exists b, orM (ok <- are_planes_compatible (pf_u32 (i_pf src)) (i_planes src) ;; ret (negb ok))
                (ok <- are_planes_compatible (pf_u32 (i_pf dst)) (i_planes dst) ;; ret (negb ok)) T m = Ok b m /\
    (b = false <-> valid_num_planes (i_pf src) (i_planes src) /\ valid_num_planes (i_pf dst) (i_planes dst)).
Proof.
  intros Us Ud.
  destruct (planes_compatible_ok (i_pf src) (i_planes src) m Us) as (b1 & E1 & B1).
  destruct (planes_compatible_ok (i_pf dst) (i_planes dst) m Ud) as (b2 & E2 & B2).
  (unfold orM, bind, ret; cbn [run]). rewrite E1. destruct b1; cbn [negb run].
  - rewrite E2. exists (negb b2). split; [reflexivity|].
    destruct b2; cbn [negb]; intuition congruence.
  - exists true. split; [reflexivity|]. intuition congruence.
Qed.

Lemma c_convert_eq error :
  planes_u32 src -> planes_u32 dst ->
  i_planes src <= Z.of_nat (length sb0) -> i_planes dst <= Z.of_nat (length db0) ->
  let m := Mem sb0 db0 in
  c_convert impl T w h src dst sb0 db0 error =
  match convert_image impl w h (format_of src) (option_map (Arr (isize_max T)) (i_strides src))
          (c_slices Src (i_planes src))
          (format_of dst) (option_map (Arr (isize_max T)) (i_strides dst))
          (c_slices Dst (i_planes dst)) T m with
  | Ok o m' => Ok (c_result_of error o) m'
  | Fault f => Fault f
  end.
Proof.
  intros Us Ud Ls Ld m. unfold c_convert, dcp_convert_image. fold m.
  change (f_pf (format_of src)) with (pf_u32 (i_pf src)).
  change (f_pf (format_of dst)) with (pf_u32 (i_pf dst)).
  change (f_cs (format_of src)) with (cs_u32 (i_cs src)).
  change (f_cs (format_of dst)) with (cs_u32 (i_cs dst)).
  change (f_planes (format_of src)) with (i_planes src).
  change (f_planes (format_of dst)) with (i_planes dst).
  rewrite !pf_valid, !cs_valid. cbn [negb orb].
  destruct (c_planes_check m Us Ud) as (b & Eb & Bb).
  rewrite (bind_eq T m _ _ _ Eb). destruct b.
  - destruct (convert_image_cases impl w h src (option_map (Arr (isize_max T)) (i_strides src))
      (c_slices Src (i_planes src)) dst (option_map (Arr (isize_max T)) (i_strides dst))
      (c_slices Dst (i_planes dst)) T m Us Ud) as [[_ E]|[((_ & N1 & _) & (_ & N2 & _) & _)|((_ & N1 & _) & (_ & N2 & _) & _)]].
    + rewrite E. reflexivity.
    + exfalso. intuition discriminate.
    + exfalso. intuition discriminate.
  - destruct (proj1 Bb eq_refl) as [N1 N2]. apply valid_planes_le in N1, N2.
    replace (Z.min (i_planes src) MAX_NUMBER_OF_PLANES) with (i_planes src) by (unfold MAX_NUMBER_OF_PLANES; lia).
    replace (Z.min (i_planes dst) MAX_NUMBER_OF_PLANES) with (i_planes dst) by (unfold MAX_NUMBER_OF_PLANES; lia).
    erewrite bind_eq.
    2:{ apply c_planes_ok; [rewrite repeat_length; lia|]. apply Forall_forall. intros x Hx. eapply repeat_spec; eauto. }
    cbn [app].
    erewrite bind_eq.
    2:{ apply c_planes_ok; [rewrite repeat_length; lia|]. apply Forall_forall. intros x Hx. eapply repeat_spec; eauto. }
    cbn [app]. fold (c_slices Src (i_planes src)) (c_slices Dst (i_planes dst)).
    (unfold bind at 1; cbn [run]).
    match goal with |- match ?x with _ => _ end = match ?y with _ => _ end => change y with x; destruct x as [o m'|f] end;
      [|reflexivity].
    destruct o; reflexivity.
Qed.

Lemma slices_view_c mk bufs n : 0 <= n <= 4 -> buffers_ok (isize_max T) bufs ->
  slices_view T (c_slices mk n) mk bufs (fun _ => isize_max T) n.
Proof.
  intros Hn Hb i Hi. pose proof (isize_usz T HT).
  pose proof (buffers_len (isize_max T) bufs i ltac:(lia) Hb).
  unfold has, c_slices. cbn [alen adata]. unfold MAX_NUMBER_OF_PLANES. rewrite Nat2Z.id.
  repeat split; try lia.
  rewrite nth_error_map, (nth_error_nth_some _ i 0%nat) by (rewrite seq_length; lia).
  rewrite seq_nth by lia. reflexivity.
Qed.

Lemma strides_view_c im bufs :
  valid_num_planes (i_pf im) (i_planes im) -> enough_planes im bufs -> strides_below (usz T) im ->
  strides_view T (strides_or_default (option_map (Arr (isize_max T)) (i_strides im))) (i_strides im) (i_planes im).
Proof.
  intros Hv (Hn & Hs) Hb. apply valid_planes_le in Hv. unfold strides_below in Hb.
  destruct (i_strides im) as [l|]; cbn [option_map strides_or_default].
  - apply strides_view_some with (l := l); auto. cbn [alen].
    destruct HT as [[E _]|[E _]]; unfold isize_max; rewrite E; cbn; lia.
  - apply strides_view_default; auto; lia.
Qed.

Lemma c_alen (o : option (list Z)) : 4 <= alen (strides_or_default (option_map (Arr (isize_max T)) o)).
Proof.
  destruct o; cbn [option_map strides_or_default arr_of alen].
  - destruct HT as [[E _]|[E _]]; unfold isize_max; rewrite E; cbn; lia.
  - cbn. lia.
Qed.

(** The check of the C entry point: it does not know the size of the buffers. *)
Definition c_size_check : bool :=
  image_accepted (both_rgb src dst) (fun _ => isize_max T) src w h &&
  image_accepted (both_rgb src dst) (fun _ => isize_max T) dst w h.

Lemma c_convert_cases error : planes_u32 src -> planes_u32 dst ->
  sizes_ok T src dst w h -> enough_planes src sb0 -> enough_planes dst db0 ->
  let valid := valid_image src w h /\ valid_image dst w h in
  let supp := supported (i_pf src) (i_pf dst) in
  let r := c_convert impl T w h src dst sb0 db0 error in
  let m := Mem sb0 db0 in
  (~ valid /\ r = Ok (set_error error InvalidValue) m) \/
  (valid /\ supp = false /\ r = Ok (set_error error InvalidOperation) m) \/
  (valid /\ supp = true /\ (w = 0 \/ h = 0) /\ r = Ok (C_Ok, error) m) \/
  (valid /\ supp = true /\ 0 < w /\ 0 < h /\ c_size_check = false /\ r = Ok (set_error error NotEnoughData) m) \/
  (valid /\ supp = true /\ 0 < w /\ 0 < h /\ c_size_check = true /\
   (image_in (slack_of slack src dst w) src w h sb0 -> image_in 0 dst w h db0 ->
    (both_rgb src dst = true -> rows_apart src w h) -> rows_apart dst w h ->
    exists after, r = Ok (C_Ok, error) (Mem sb0 after) /\ converted (A (i_pf src) (i_pf dst) w) src dst w h sb0 db0 after)).
Proof.
  intros Us Ud HO Es Ed valid supp r m.
  pose proof (c_convert_eq error Us Ud (proj1 Es) (proj1 Ed)) as Er. cbv zeta in Er.
  change (c_convert impl T w h src dst sb0 db0 error) with r in Er.
  change (Mem sb0 db0) with m in Er.
  pose proof (convert_image_cases impl w h src (option_map (Arr (isize_max T)) (i_strides src))
      (c_slices Src (i_planes src)) dst (option_map (Arr (isize_max T)) (i_strides dst))
      (c_slices Dst (i_planes dst)) T m Us Ud) as HC. cbv zeta in HC.
  destruct HC as [[N E]|[(Vs & Vd & Hsup & E)|(Vs & Vd & Hsup & E)]]; rewrite E in Er.
  - left. split; auto.
  - right; left. split; [split; auto|]. split; auto.
  - do 2 right. assert valid by (split; assumption).
    assert (Hz : (w = 0 \/ h = 0) \/ (0 < w /\ 0 < h)) by lia.
    destruct Hz as [Hz|[W H0]].
    { left. split; [|split; [|split]]; auto. rewrite Er. unfold call_converter.
      rewrite (bind_eq T m _ _ _ (converter_empty T A slack impl HI w h src dst _ _ _ _ m Hz Vs Vd Hsup _ _)).
      reflexivity. }
    right.
    pose proof (valid_planes_le _ _ (proj1 (proj2 Vs))) as Ps.
    pose proof (valid_planes_le _ _ (proj1 (proj2 Vd))) as Pd.
    pose proof (convert_views sb0 db0 _ _ _ _ (fun _ => isize_max T) (fun _ => isize_max T)
      (buffers_bytes _ _ Bs) W H0
      (strides_view_c src sb0 (proj1 (proj2 Vs)) Es Ss)
      (strides_view_c dst db0 (proj1 (proj2 Vd)) Ed Sd)
      (slices_view_c Src sb0 (i_planes src) ltac:(lia) Bs)
      (slices_view_c Dst db0 (i_planes dst) ltac:(lia) Bd)
      Vs Vd Hsup HO (fun _ => conj (Z.le_refl _) (Z.le_refl _))) as V.
    cbv zeta in V. fold c_size_check in V. destruct V as (V1 & V2 & V4 & V3). rewrite <- E in Er.
    destruct c_size_check eqn:Esc.
    + right. do 5 (split; [assumption || reflexivity|]).
      intros I1 I2 R1 R2. destruct (V3 eq_refl I1 I2 R1 R2) as (after & Ea & Hc).
      { intros g. apply (planes_stride T dst w h g HT Sd ltac:(lia)). }
      exists after. split; auto. rewrite Er. unfold m. rewrite Ea. reflexivity.
    + left. do 5 (split; [assumption || reflexivity|]). rewrite Er, (V1 eq_refl). reflexivity.
Qed.

Lemma c_convert_ok error :
  0 < w -> 0 < h ->
  valid_image src w h -> valid_image dst w h -> supported (i_pf src) (i_pf dst) = true ->
  enough_planes src sb0 -> enough_planes dst db0 ->
  image_fits src w h sb0 -> image_fits dst w h db0 ->
  0 <= slack_of slack src dst w ->
  image_in (slack_of slack src dst w) src w h sb0 ->
  exists after, c_convert impl T w h src dst sb0 db0 error = Ok (C_Ok, error) (Mem sb0 after) /\
                converted (A (i_pf src) (i_pf dst) w) src dst w h sb0 db0 after.
Proof.
  intros W H0 Vs Vd Hsup Es Ed Fs Fd Hsl Hin.
  pose proof (isize_usz T HT) as [I1 I2].
  destruct (image_fits_in src w h sb0 W H0 (proj2 (proj2 Vs)) Fs) as [Is Rs].
  destruct (image_fits_in dst w h db0 W H0 (proj2 (proj2 Vd)) Fd) as [Id Rd].
  assert (HO : sizes_ok T src dst w h).
  { split; eapply image_in_overflow with (s := 0); eauto; try lia; try apply Vs; try apply Vd;
      intros i; apply buffers_len; auto. }
  assert (Hck : c_size_check = true).
  { unfold c_size_check. apply andb_true_iff.
    split; eapply image_fits_accepted; eauto; try apply Vs; try apply Vd;
      try (intros; apply buffers_len; auto);
      unfold both_rgb; intros E; apply andb_true_iff in E; tauto. }
  destruct (c_convert_cases error (valid_planes_u32 _ _ _ Vs) (valid_planes_u32 _ _ _ Vd) HO Es Ed)
    as [C|[C|[C|[C|C]]]]; try (exfalso; intuition (congruence || lia)).
  destruct C as (_ & _ & _ & _ & _ & C). apply C; auto.
Qed.
End Convert.
