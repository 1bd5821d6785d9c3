(** Facts about the C functions dcp_get_buffers_size and dcp_convert_image, cpu
    detection and the dispatch table. *)
From Coq Require Import ZArith List Bool Lia ZifyBool ZifyNat.
Import ListNotations.
From Verif Require Import Base Exec Fmt Dispatch Common Wrappers CpuInfo Lib Sets Spec SetSpec ApiSpec Api WrapperFacts LibFacts SizeFacts
  ApiProofs SetProofs ConvertProofs CallFacts ResultFacts PropFacts.
Open Scope Z_scope.
Ltac Zify.zify_post_hook ::= Z.div_mod_to_equations.

(** ** Dispatch *)

Definition formats := (pixel_format * color_space)%type.

(** The request a table entry was written for. *)
Definition registered_for (c : conv) : formats * formats :=
  match c with
  | Rgb_rgb s d => ((s, CsRgb), (d, CsRgb))
  | Rgb_yuv s d cs => ((s, CsRgb), (d, cs))
  | Yuv_rgb s cs d => ((s, cs), (d, CsRgb))
  end.

Lemma dispatched impl T w h src dst ss sb ds db m :
  planes_u32 src -> planes_u32 dst -> valid_image src w h -> valid_image dst w h ->
  supported (i_pf src) (i_pf dst) = true ->
  exists c, registered_for c = ((i_pf src, i_cs src), (i_pf dst, i_cs dst)) /\
    convert_image impl w h (format_of src) ss sb (format_of dst) ds db T m =
    (r <- impl c w h (i_planes src - 1) (strides_or_default ss) sb (i_planes dst - 1) (strides_or_default ds) db ;;
     ret (if (r : bool) then Success else Err NotEnoughData)) T m.
Proof.
  intros Us Ud Vs Vd S. exists (conv_of (i_pf src) (i_pf dst) (i_cs src) (i_cs dst)). split.
  - destruct Vs as (Vs & _), Vd as (Vd & _). unfold valid_colors in *.
    destruct (i_pf src), (i_pf dst); try discriminate S; cbn in *;
      repeat match goal with H : true = true <-> ?x = ?y |- _ => rewrite (proj1 H eq_refl); clear H end; reflexivity.
  - destruct (convert_image_cases impl w h src ss sb dst ds db T m Us Ud) as [[N _]|[(_ & _ & N & _)|(_ & _ & _ & E)]];
      [tauto|congruence|]. rewrite E. unfold call_converter.
    pose proof (valid_planes_small _ _ (proj1 (proj2 Vs))). pose proof (valid_planes_small _ _ (proj1 (proj2 Vd))).
    rewrite !u32_last by lia. reflexivity.
Qed.

Lemma not_dispatched impl T w h src dst ss sb ds db m :
  planes_u32 src -> planes_u32 dst -> valid_image src w h -> valid_image dst w h ->
  (supported (i_pf src) (i_pf dst) = false <->
   forall impl, convert_image impl w h (format_of src) ss sb (format_of dst) ds db T m = Ok (Err InvalidOperation) m) /\
  (supported (i_pf src) (i_pf dst) = true ->
   forall m', convert_image impl w h (format_of src) ss sb (format_of dst) ds db T m <> Ok (Err InvalidOperation) m').
Proof.
  intros Us Ud Vs Vd.
  assert (P : supported (i_pf src) (i_pf dst) = true -> forall impl m',
    convert_image impl w h (format_of src) ss sb (format_of dst) ds db T m <> Ok (Err InvalidOperation) m').
  { intros S impl' m'. destruct (dispatched impl' T w h src dst ss sb ds db m Us Ud Vs Vd S) as (c & _ & E).
    rewrite E. (unfold bind, ret; cbn [run]). destruct (impl' c _ _ _ _ _ _ _ _ T m) as [[|] ?|]; discriminate. }
  split; [split|auto].
  - intros S impl'. destruct (convert_image_cases impl' w h src ss sb dst ds db T m Us Ud) as [[N _]|[(_ & _ & _ & E)|(_ & _ & N & _)]];
      [tauto|exact E|congruence].
  - intros H. destruct (supported _ _) eqn:S; [|reflexivity]. exfalso. exact (P eq_refl impl m (H impl)).
Qed.

(** The slot used for a pair of images. *)
Definition slot (s d : formats) : Z :=
  get_index (img_index (fst s) (snd s)) (img_index (fst d) (snd d)).

Definition index_ok (a b : formats) : bool :=
  negb (colors_b (fst a) (snd a) && colors_b (fst b) (snd b)) ||
  ((0 <=? img_index (fst a) (snd a)) && (img_index (fst a) (snd a) <? 32) && (COLUMNS =? 32) &&
   (negb (img_index (fst a) (snd a) =? img_index (fst b) (snd b)) ||
    (pf_u32 (fst a) =? pf_u32 (fst b)) && (cs_u32 (snd a) =? cs_u32 (snd b)))).

Lemma index_all a b : index_ok a b = true.
Proof. destruct a as [[] []], b as [[] []]; vm_compute; reflexivity. Qed.

Lemma slot_inj s d s' d' :
  valid_colors (fst s) (snd s) -> valid_colors (fst d) (snd d) ->
  valid_colors (fst s') (snd s') -> valid_colors (fst d') (snd d') ->
  slot s d = slot s' d' -> s = s' /\ d = d'.
Proof.
  rewrite <- !colors_b_ok. intros Vs Vd Vs' Vd' E.
  pose proof (index_all s s') as I1. pose proof (index_all d d') as I2.
  pose proof (index_all s' s) as I3. pose proof (index_all d' d) as I4.
  unfold index_ok in *. rewrite Vs, Vs' in I1. rewrite Vd, Vd' in I2. rewrite Vs, Vs' in I3. rewrite Vd, Vd' in I4.
  cbn [andb negb orb] in *. unfold slot, get_index in E.
  assert (C : COLUMNS = 32) by lia. rewrite C in *.
  assert (img_index (fst s) (snd s) = img_index (fst s') (snd s') /\ img_index (fst d) (snd d) = img_index (fst d') (snd d')) as [E1 E2] by lia.
  rewrite E1, Z.eqb_refl in I1. rewrite E2, Z.eqb_refl in I2. cbn [negb orb] in *.
  destruct s, d, s', d'. cbn [fst snd] in *.
  assert (pf_u32 p = pf_u32 p1 /\ cs_u32 c = cs_u32 c1 /\ pf_u32 p0 = pf_u32 p2 /\ cs_u32 c0 = cs_u32 c2) as (A1 & A2 & A3 & A4) by lia.
  apply pf_u32_inj in A1, A3. apply cs_u32_inj in A2, A4. subst. auto.
Qed.

(** Distinct entries of the table are different functions. *)
Lemma registered_inj c c' : registered_for c = registered_for c' ->
  In c dispatch_entries -> In c' dispatch_entries -> c = c'.
Proof.
  intros E H H'.
  assert (K : forall c, In c dispatch_entries -> c = conv_of (fst (fst (registered_for c))) (fst (snd (registered_for c)))
                                                       (snd (fst (registered_for c))) (snd (snd (registered_for c)))).
  { apply Forall_forall. repeat (apply Forall_cons; [reflexivity|]). apply Forall_nil. }
  rewrite (K c H), (K c' H'), E. reflexivity.
Qed.

(** ** Processor detection *)

Definition bit (x n : Z) : bool := Z.testbit x n.

Lemma land_bit x n : 0 <= n -> Z.land x (Z.shiftl 1 n) =? 0 = negb (bit x n).
Proof.
  intros Hn. unfold bit. destruct (Z.testbit x n) eqn:E; cbn [negb].
  - apply Z.eqb_neq. intros H. assert (Z.testbit (Z.land x (Z.shiftl 1 n)) n = false) by (rewrite H; apply Z.bits_0).
    rewrite Z.land_spec, E, Z.shiftl_spec, Z.sub_diag in H0 by lia. discriminate.
  - apply Z.eqb_eq. apply Z.bits_inj'. intros k Hk. rewrite Z.land_spec, Z.bits_0, Z.shiftl_spec by lia.
    destruct (Z.eq_dec k n) as [->|N]; [rewrite E; reflexivity|].
    rewrite andb_false_iff. right. destruct (Z.lt_ge_cases k n).
    + apply Z.testbit_neg_r. lia.
    + rewrite Z.bit0_odd || idtac. replace (k - n) with (Z.succ (k - n - 1)) by lia.
      change 1 with (2 * 0 + 1). rewrite Z.testbit_odd_succ by lia. apply Z.bits_0.
Qed.

Lemma get_x86_cases cpuid :
  let avx := bit (ebx (cpuid 7)) 5 in let sse := bit (edx (cpuid 1)) 26 in
  match snd (get_x86 cpuid) with
  | X86 => eax (cpuid 0) = 0 \/ sse = false
  | Sse2 => eax (cpuid 0) <> 0 /\ sse = true
  | Avx2 => eax (cpuid 0) <> 0 /\ sse = true /\ avx = true /\ fst (get_x86 cpuid) <> Amd
  | Neon => False
  end.
Proof.
  cbv zeta. unfold get_x86. destruct (eax (cpuid 0) =? 0) eqn:E0; [left; cbn; lia|].
  rewrite land_bit by lia. destruct (bit (edx (cpuid 1)) 26) eqn:E1; cbn [negb]; [|cbn; auto].
  set (m := if compare_cpu_manufacturer _ GenuineIntel =? 0 then Intel else _).
  cbn [fst snd]. rewrite land_bit by lia.
  destruct m; [destruct (bit (ebx (cpuid 7)) 5) eqn:E7; cbn [negb] ..|].
  all: try solve [repeat split; try lia; discriminate].
Qed.

(** ** The C functions *)

Definition failed (error : option (option error_kind)) (e : error_kind) : c_result * option (option error_kind) :=
  (C_Err, match error with None => None | Some _ => Some (Some e) end).

Lemma set_error_failed error e : set_error error e = failed error e.
Proof. unfold set_error, failed. destruct error; reflexivity. Qed.

Definition known_format (f : image_format) : Prop := exists pf cs, f_pf f = pf_u32 pf /\ f_cs f = cs_u32 cs.
Definition format_u32 (f : image_format) : Prop :=
  0 <= f_pf f < 2 ^ 32 /\ 0 <= f_cs f < 2 ^ 32 /\ 0 <= f_planes f < 2 ^ 32.

Lemma pf_code x : 0 <= x < 2 ^ 32 -> is_pixel_format_valid x = true -> exists pf, x = pf_u32 pf.
Proof.
  intros H. unfold is_pixel_format_valid, u32.
  change (LO_RGB_PIXEL_FORMAT) with 0. change ((HI_YUV_PIXEL_FORMAT - 0) mod 2 ^ 32) with 8.
  rewrite Z.sub_0_r, Z.mod_small by lia. intros E.
  assert (x = 0 \/ x = 1 \/ x = 2 \/ x = 3 \/ x = 4 \/ x = 5 \/ x = 6 \/ x = 7 \/ x = 8) as Hx by lia.
  destruct Hx as [->|[->|[->|[->|[->|[->|[->|[->| ->]]]]]]]];
    [exists Argb|exists Bgra|exists Bgr|exists Rgba|exists Rgb|exists I444|exists I422|exists I420|exists Nv12]; reflexivity.
Qed.

Lemma cs_code x : 0 <= x < 2 ^ 32 -> is_color_space_valid x = true -> exists cs, x = cs_u32 cs.
Proof.
  intros H. unfold is_color_space_valid, u32.
  change (LO_RGB_COLOR_SPACE) with 0. change ((HI_YUV_COLOR_SPACE - 0) mod 2 ^ 32) with 4.
  rewrite Z.sub_0_r, Z.mod_small by lia. intros E.
  assert (x = 0 \/ x = 1 \/ x = 2 \/ x = 3 \/ x = 4) as Hx by lia.
  destruct Hx as [->|[->|[->|[->| ->]]]];
    [exists CsRgb|exists Bt601|exists Bt709|exists Bt601FR|exists Bt709FR]; reflexivity.
Qed.

(** Mandatory pointers. *)
Lemma c_null impl w h sf ss sp df ds dp error T m :
  sf = None \/ df = None \/ sp = None \/ dp = None ->
  dcp_convert_image impl w h sf ss sp df ds dp error T m = Ok (failed error InvalidValue) m.
Proof.
  intros H. rewrite <- set_error_failed. unfold dcp_convert_image.
  destruct sf, df, sp, dp; try reflexivity. destruct H as [?|[?|[?|?]]]; discriminate.
Qed.

(** Unknown enum values. *)
Lemma c_unknown impl w h sf ss sp df ds dp error T m :
  format_u32 sf -> format_u32 df -> ~ (known_format sf /\ known_format df) ->
  dcp_convert_image impl w h (Some sf) ss (Some sp) (Some df) ds (Some dp) error T m = Ok (failed error InvalidValue) m.
Proof.
  intros (A1 & A2 & _) (B1 & B2 & _) H. rewrite <- set_error_failed. unfold dcp_convert_image.
  destruct (is_pixel_format_valid (f_pf sf)) eqn:E1; [|reflexivity].
  destruct (is_pixel_format_valid (f_pf df)) eqn:E2; [|reflexivity].
  destruct (is_color_space_valid (f_cs sf)) eqn:E3; [|reflexivity].
  destruct (is_color_space_valid (f_cs df)) eqn:E4; [|reflexivity].
  exfalso. apply H. apply pf_code in E1, E2; auto. apply cs_code in E3, E4; auto.
  destruct E1, E2, E3, E4. split; eexists; eexists; eauto.
Qed.

Lemma are_planes_compatible_ok pf n T m : 0 <= n < 2 ^ 32 ->
  exists b, are_planes_compatible (pf_u32 pf) n T m = Ok b m /\ (b = true <-> valid_num_planes pf n).
Proof. intros. apply (planes_compatible_ok T 0 0); lia. Qed.

Lemma format_known f : known_format f -> exists pf cs, f = image_format_of pf cs (f_planes f).
Proof. intros (pf & cs & E1 & E2). exists pf, cs. destruct f; cbn in *. subst. reflexivity. Qed.

Definition planes_valid (f : image_format) : Prop :=
  exists pf, f_pf f = pf_u32 pf /\ valid_num_planes pf (f_planes f).

Lemma checks_pass f T m : known_format f -> 0 <= f_planes f < 2 ^ 32 ->
  is_pixel_format_valid (f_pf f) = true /\ is_color_space_valid (f_cs f) = true /\
  exists b, are_planes_compatible (f_pf f) (f_planes f) T m = Ok b m /\ (b = true <-> planes_valid f).
Proof.
  intros K Hn. destruct K as (pf & cs & E1 & E2). rewrite E1, E2.
  split; [destruct pf; reflexivity|]. split; [destruct cs; reflexivity|].
  destruct (are_planes_compatible_ok pf (f_planes f) T m Hn) as (b & E & B). exists b. split; auto.
  rewrite B. unfold planes_valid. split; [eauto|]. intros (pf' & E3 & V).
  rewrite E1 in E3. apply pf_u32_inj in E3. subst. auto.
Qed.

(** Bad plane counts. *)
Lemma c_bad_planes impl w h sf ss sp df ds dp error T m :
  format_u32 sf -> format_u32 df -> known_format sf -> known_format df ->
  ~ (planes_valid sf /\ planes_valid df) ->
  dcp_convert_image impl w h (Some sf) ss (Some sp) (Some df) ds (Some dp) error T m = Ok (failed error InvalidValue) m.
Proof.
  intros (_ & _ & Ns) (_ & _ & Nd) Ks Kd H. rewrite <- set_error_failed. unfold dcp_convert_image.
  destruct (checks_pass sf T m Ks Ns) as (-> & -> & bs & Es & Bs).
  destruct (checks_pass df T m Kd Nd) as (-> & -> & bd & Ed & Bd). cbn [negb orb].
  (unfold orM, bind, ret; cbn [run]). rewrite Es. destruct bs; cbn [negb run]; [|reflexivity].
  rewrite Ed. destruct bd; cbn [negb]; [|reflexivity]. exfalso. tauto.
Qed.

Lemma c_planes_null T mk ptrs m : forall n i l k,
  (forall j, (j < n)%nat -> (i + j < length ptrs)%nat) -> (k < n)%nat -> nth (i + k) ptrs true = false ->
  c_planes mk ptrs i n l T m = Ok None m.
Proof.
  induction n as [|n IH]; intros i l k L Hk E; [lia|]. cbn [c_planes].
  pose proof (L 0%nat ltac:(lia)) as L0. rewrite Nat.add_0_r in L0.
  destruct (nth_error ptrs i) as [[|]|] eqn:N.
  - destruct k as [|k].
    + rewrite Nat.add_0_r in E. rewrite (nth_error_nth _ _ _ N) in E. discriminate.
    + cbn [run]. apply (IH (S i) _ k); [|lia|rewrite <- E; f_equal; lia].
      intros j Hj. specialize (L (S j) ltac:(lia)). lia.
  - reflexivity.
  - apply nth_error_None in N. lia.
Qed.

Lemma c_planes_ok T mk ptrs m : forall n i l,
  (forall j, (j < n)%nat -> (i + j < length ptrs)%nat) -> 
  (exists r, c_planes mk ptrs i n l T m = Ok r m).
Proof.
  induction n as [|n IH]; intros i l L; [cbn; eauto|]. cbn [c_planes].
  pose proof (L 0%nat ltac:(lia)) as L0. rewrite Nat.add_0_r in L0.
  destruct (nth_error ptrs i) as [[|]|] eqn:N; cbn [run ret]; [|eauto|apply nth_error_None in N; lia].
  apply IH. intros j Hj. specialize (L (S j) ltac:(lia)). lia.
Qed.

(** Null plane pointers. *)
Lemma c_null_plane impl w h sf ss sp df ds dp error T m :
  format_u32 sf -> format_u32 df -> known_format sf -> known_format df -> planes_valid sf -> planes_valid df ->
  f_planes sf <= zlen sp -> f_planes df <= zlen dp ->
  (exists k, Z.of_nat k < f_planes sf /\ nth k sp true = false) \/
  (exists k, Z.of_nat k < f_planes df /\ nth k dp true = false) ->
  dcp_convert_image impl w h (Some sf) ss (Some sp) (Some df) ds (Some dp) error T m = Ok (failed error InvalidValue) m.
Proof.
  intros (_ & _ & Ns) (_ & _ & Nd) Ks Kd Vs Vd Ls Ld H. rewrite <- set_error_failed. unfold dcp_convert_image.
  destruct (checks_pass sf T m Ks Ns) as (-> & -> & bs & Es & Bs).
  destruct (checks_pass df T m Kd Nd) as (-> & -> & bd & Ed & Bd). cbn [negb orb].
  assert (bs = true) as -> by tauto. assert (bd = true) as -> by tauto.
  (unfold orM, bind, ret; cbn [run]). rewrite Es. cbn [negb run]. rewrite Ed. cbn [negb run].
  destruct Vs as (pfs & _ & Vs), Vd as (pfd & _ & Vd). apply valid_planes_small in Vs, Vd.
  unfold MAX_NUMBER_OF_PLANES, zlen in *. rewrite !Z.min_l by lia.
  destruct H as [(k & Hk & E)|(k & Hk & E)].
  - rewrite (c_planes_null T Src sp m _ 0 [] k); auto; intros; lia.
  - destruct (c_planes_ok T Src sp m (Z.to_nat (f_planes sf)) 0 []) as [[sl|] ->]; [intros; lia| |reflexivity].
    cbn [run]. rewrite (c_planes_null T Dst dp m _ 0 [] k); auto; intros; lia.
Qed.

(** *** dcp_get_buffers_size *)

Lemma c_size_bad w h f ss bs error T m :
  match f, bs with
  | Some f, Some _ => 0 <= f_pf f < 2 ^ 32 /\ 0 <= f_planes f < 2 ^ 32 /\ ~ planes_valid f
  | _, _ => True
  end ->
  dcp_get_buffers_size w h f ss bs error T m = Ok (failed error InvalidValue, bs) m.
Proof.
  intros H. rewrite <- set_error_failed. unfold dcp_get_buffers_size.
  destruct f as [f|], bs as [bs|]; try reflexivity. destruct H as (A & B & N).
  destruct (is_pixel_format_valid (f_pf f)) eqn:E1; cbn [negb]; [|reflexivity].
  apply pf_code in E1; auto. destruct E1 as [pf E1]. rewrite E1.
  destruct (are_planes_compatible_ok pf (f_planes f) T m B) as (b & E & Bb).
  rewrite (bind_eq T m _ _ _ E). destruct b; cbn [negb]; [|reflexivity].
  exfalso. apply N. exists pf. tauto.
Qed.

Lemma c_size_same w h f ss bs error T m : 0 <= f_planes f < 2 ^ 32 -> planes_valid f ->
  match ss with Some l => f_planes f <= zlen l | None => True end -> f_planes f <= zlen bs ->
  let n := Z.to_nat (f_planes f) in
  dcp_get_buffers_size w h (Some f) ss (Some bs) error T m =
  match get_buffers_size w h f (option_map (firstn n) ss) (firstn n bs) T m with
  | Ok (Success, sizes) m' => Ok (C_Ok, error, Some (sizes ++ skipn n bs)) m'
  | Ok (Err e, sizes) m' => Ok (failed error e, Some (sizes ++ skipn n bs)) m'
  | Fault x => Fault x
  end.
Proof.
  intros Hn (pf & E1 & V) L1 L2 n. unfold dcp_get_buffers_size. fold n. rewrite E1.
  replace (is_pixel_format_valid (pf_u32 pf)) with true by (destruct pf; reflexivity). cbn [negb].
  destruct (are_planes_compatible_ok pf (f_planes f) T m Hn) as (b & E & Bb).
  rewrite (bind_eq T m _ _ _ E). assert (b = true) as -> by tauto. cbn [negb].
  replace (match ss with Some s => zlen s <? f_planes f | None => false end) with false
    by (destruct ss; [lia|reflexivity]).
  replace (zlen bs <? f_planes f) with false by lia.
  (unfold bind, ret, option_map; cbn [run]).
  destruct (get_buffers_size _ _ _ _ _ _ _) as [[[|e] sizes] m'|]; try reflexivity.
  rewrite set_error_failed. reflexivity.
Qed.

(** *** Same answers as the Rust function *)

Lemma c_same_errors impl T w h src dst sb db error : 
  well_formed (usz T) w h src dst sb db -> enough_planes src sb -> enough_planes dst db ->
  (~ (valid_image src w h /\ valid_image dst w h) ->
   convert impl T w h src dst sb db = Ok (Err InvalidValue) (Mem sb db) /\
   c_convert impl T w h src dst sb db error = Ok (failed error InvalidValue) (Mem sb db)) /\
  (valid_image src w h -> valid_image dst w h -> supported (i_pf src) (i_pf dst) = false ->
   convert impl T w h src dst sb db = Ok (Err InvalidOperation) (Mem sb db) /\
   c_convert impl T w h src dst sb db error = Ok (failed error InvalidOperation) (Mem sb db)).
Proof.
  intros HW Es Ed. destruct (format_planes_u32 _ _ _ _ _ _ _ HW) as [Us Ud].
  pose proof (c_convert_eq T impl w h (proj1 HW) (proj1 (proj2 HW)) src dst sb db error Us Ud (proj1 Es) (proj1 Ed)) as Er. cbv zeta in Er.
  destruct (convert_image_cases impl w h src (option_map arr_of (i_strides src)) (arr_of (rust_slices Src sb))
              dst (option_map arr_of (i_strides dst)) (arr_of (rust_slices Dst db)) T (Mem sb db) Us Ud)
    as [[N F]|[(V1 & V2 & S & F)|(V & V' & S & _)]];
  destruct (convert_image_cases impl w h src (option_map (Arr (isize_max T)) (i_strides src)) (c_slices T Src (i_planes src))
              dst (option_map (Arr (isize_max T)) (i_strides dst)) (c_slices T Dst (i_planes dst)) T (Mem sb db) Us Ud)
    as [[N' F']|[(V1' & V2' & S' & F')|(W & W' & S' & _)]]; try tauto; try congruence;
    rewrite <- !set_error_failed; cbv zeta in *.
  - rewrite F' in Er. split; [intros _|tauto]. split; [exact F|exact Er].
  - rewrite F' in Er. split; [tauto|]. intros _ _ _. split; [exact F|exact Er].
  - split; [tauto|congruence].
Qed.

Lemma c_same_success set T w h src dst sb db error : is_target T ->
  documented_call (usz T) w h src dst sb db -> room set src dst w h sb ->
  exists m', convert (converters set) T w h src dst sb db = Ok Success m' /\
             c_convert (converters set) T w h src dst sb db error = Ok (C_Ok, error) m'.
Proof.
  intros HT HD R. destruct (any_documented_room set T w h src dst sb db HT HD R) as (a & E & C).
  destruct (documented_ok_c T HT (set_cols set) (set_slack set) (converters set) (set_ok set T) w h src dst sb db error HD) as (a' & E' & C');
    try (rewrite slack_of_set by apply HD; [apply over_read_nonneg || exact R]).
  exists (Mem sb a). split; [exact E|]. rewrite E'. f_equal. f_equal.
  eapply converted_same; [exact C'|exact C|]. reflexivity.
Qed.

Lemma described_inj c c' : describe_acceleration c = describe_acceleration c' -> c = c'.
Proof. destruct c as [[] []], c' as [[] []]; intros E; try reflexivity; discriminate E. Qed.
