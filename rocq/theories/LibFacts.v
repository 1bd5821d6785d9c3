(** Facts about format validation and dispatch (pixel_format.rs, dispatcher.rs, lib.rs). *)
From Coq Require Import ZArith Znumtheory Zpow_facts List Bool Lia ZifyBool ZifyNat.
Import ListNotations.
From Verif Require Import Base Exec Fmt Dispatch Common Wrappers Lib Spec ApiSpec Api WrapperFacts.
Open Scope Z_scope.
Ltac Zify.zify_post_hook ::= Z.div_mod_to_equations.

Definition all_pf : list pixel_format := [Argb; Bgra; Bgr; Rgba; Rgb; I444; I422; I420; Nv12].
Definition all_cs : list color_space := [CsRgb; Bt601; Bt709; Bt601FR; Bt709FR].
Lemma In_all_pf pf : In pf all_pf. Proof. destruct pf; cbn; tauto. Qed.
Lemma In_all_cs cs : In cs all_cs. Proof. destruct cs; cbn; tauto. Qed.

(** Consecutive numbers below 2^32 whose product is a multiple of 2^32. *)
Lemma consecutive_product a : 0 <= a < 2 ^ 32 ->
  (a * ((a - 1) mod 2 ^ 32)) mod 2 ^ 32 = 0 <-> a = 0 \/ a = 1.
Proof.
  intros Ha. split.
  2:{ intros [->| ->]; reflexivity. }
  intros H. rewrite Z.mul_mod_idemp_r in H by lia.
  apply Z.mod_divide in H; [|lia].
  destruct (Zeven_odd_dec a) as [Hev|Hod].
  - (* a even: a - 1 is odd, so 2^32 divides a *)
    assert (Hg : rel_prime (2 ^ 32) (a - 1)).
    { apply rel_prime_sym. change (2 ^ 32) with (2 ^ 32). apply rel_prime_Zpower_r; [lia|].
      apply rel_prime_sym. apply prime_rel_prime; [apply prime_2|].
      intros [q Hq]. apply Zeven_ex in Hev. destruct Hev as [r Hr]. lia. }
    rewrite Z.mul_comm in H. apply (Gauss _ _ _ H) in Hg. destruct Hg as [q Hq]. left. lia.
  - assert (Hg : rel_prime (2 ^ 32) a).
    { apply rel_prime_sym. apply rel_prime_Zpower_r; [lia|].
      apply rel_prime_sym. apply prime_rel_prime; [apply prime_2|].
      intros [q Hq]. apply Zodd_ex in Hod. destruct Hod as [r Hr]. lia. }
    apply (Gauss _ _ _ H) in Hg. destruct Hg as [q Hq]. right. lia.
Qed.

Lemma land_1 x : Z.land x 1 = x mod 2.
Proof. change 1 with (Z.ones 1). rewrite Z.land_ones by lia. reflexivity. Qed.

Lemma u32_last n : 0 <= n < 2 ^ 32 -> n <> 0 -> u32 (n - 1) = n - 1.
Proof. intros. unfold u32. apply Z.mod_small. lia. Qed.

Lemma is_compatible_ok pf w h n T m :
  0 <= n < 2 ^ 32 ->
  exists b, is_compatible (pf_u32 pf) w h (u32 (n - 1)) T m = Ok b m /\
            (b = true <-> valid_num_planes pf n /\ valid_size pf w h).
Proof.
  intros Hn. (unfold is_compatible, bind; cbn [run]).
  replace (index PF_SPECS (pf_u32 pf) T m) with (Ok (nth (Z.to_nat (pf_u32 pf)) PF_SPECS 0) m)
    by (destruct pf; reflexivity).
  eexists. split; [reflexivity|].
  set (last := u32 (n - 1)).
    assert (Hl : 0 <= last < 2 ^ 32) by (unfold last, u32; apply Z.mod_pos_bound; lia).
    assert (El : forall k, 0 <= k < 2 ^ 32 - 1 -> last = k <-> n = k + 1).
    { intros k Hk. unfold last, u32. split; intros H.
      - destruct (Z.eq_dec n 0) as [->|E]; [change (0 - 1) with (-1) in H; lia|].
        rewrite Z.mod_small in H by lia. lia.
      - subst n. rewrite Z.mod_small by lia. lia. }
    assert (E1 : forall k, 0 <= k < 2 ^ 32 - 1 -> u32 (1 * u32 (last - k)) = 0 <-> n = k + 1).
    { intros k Hk. rewrite Z.mul_1_l. unfold u32 at 1 2. rewrite Z.mod_mod by lia.
      rewrite <- (El k Hk). split; intros H; [|rewrite H, Z.sub_diag; reflexivity].
      apply Z.mod_divide in H; [|lia]. destruct H as [q Hq]. lia. }
    assert (E2 : u32 (last * u32 (last - 1)) = 0 <-> (n = 1 \/ n = 2)).
    { unfold u32. rewrite consecutive_product by auto.
      rewrite (El 0) by lia. rewrite (El 1) by lia. lia. }
    clearbody last.
    rewrite Z.eqb_eq, !Z.lor_eq_0_iff.
    destruct pf; cbn [pf_u32 valid_num_planes valid_size];
      repeat match goal with
      | |- context [get_pf_width ?e] => let v := eval vm_compute in (get_pf_width e) in change (get_pf_width e) with v
      | |- context [get_pf_height ?e] => let v := eval vm_compute in (get_pf_height e) in change (get_pf_height e) with v
      | |- context [get_pf_planes ?e] => let v := eval vm_compute in (get_pf_planes e) in change (get_pf_planes e) with v
      end;
      repeat match goal with
      | |- context [if ?a =? ?b then last else 1] =>
          let v := eval vm_compute in (a =? b) in change (a =? b) with v; cbv iota
      end;
      rewrite ?E2, ?(E1 0), ?(E1 2) by lia; rewrite ?Z.land_0_r, ?land_1; lia.
Qed.

(** The entry of the table for a pair of images. *)
Definition conv_of (spf dpf : pixel_format) (scs dcs : color_space) : conv :=
  if is_rgb spf then if is_rgb dpf then Rgb_rgb spf dpf else Rgb_yuv spf dpf dcs
  else Yuv_rgb spf scs dpf.

Definition img_index (pf : pixel_format) (cs : color_space) : Z :=
  get_image_index (pf_u32 pf) (cs_u32 cs) (get_pixel_format_mode (pf_u32 pf)).

Definition colors_b (pf : pixel_format) (cs : color_space) : bool :=
  Bool.eqb (is_rgb pf) (match cs with CsRgb => true | _ => false end).

Lemma colors_b_ok pf cs : colors_b pf cs = true <-> valid_colors pf cs.
Proof.
  unfold colors_b, valid_colors. rewrite eqb_true_iff.
  destruct (is_rgb pf), cs; intuition congruence.
Qed.

Lemma modes_ok pf cs :
  xorb (get_pixel_format_mode (pf_u32 pf)) (get_color_space_mode (cs_u32 cs)) = negb (colors_b pf cs).
Proof. destruct pf, cs; reflexivity. Qed.

Definition conv_eqb (a b : conv) : bool :=
  match a, b with
  | Rgb_rgb s d, Rgb_rgb s' d' => (pf_u32 s =? pf_u32 s') && (pf_u32 d =? pf_u32 d')
  | Rgb_yuv s d c, Rgb_yuv s' d' c' => (pf_u32 s =? pf_u32 s') && (pf_u32 d =? pf_u32 d') && (cs_u32 c =? cs_u32 c')
  | Yuv_rgb s c d, Yuv_rgb s' c' d' => (pf_u32 s =? pf_u32 s') && (pf_u32 d =? pf_u32 d') && (cs_u32 c =? cs_u32 c')
  | _, _ => false
  end.
Lemma pf_u32_inj a b : pf_u32 a = pf_u32 b -> a = b.
Proof. destruct a, b; cbn; intros; try reflexivity; discriminate. Qed.
Lemma cs_u32_inj a b : cs_u32 a = cs_u32 b -> a = b.
Proof. destruct a, b; cbn; intros; try reflexivity; discriminate. Qed.
Lemma conv_eqb_ok a b : conv_eqb a b = true -> a = b.
Proof.
  destruct a, b; cbn [conv_eqb]; try discriminate; rewrite !andb_true_iff, !Z.eqb_eq;
    intros; repeat match goal with H : _ /\ _ |- _ => destruct H end; f_equal;
    auto using pf_u32_inj, cs_u32_inj.
Qed.

(** What the table contains for a pair of images. *)
Definition entry_ok (spf : pixel_format) (scs : color_space) (dpf : pixel_format) (dcs : color_space) : bool :=
  negb (colors_b spf scs && colors_b dpf dcs) ||
  (let i := get_index (img_index spf scs) (img_index dpf dcs) in
   match nth_error dispatch_table (Z.to_nat i) with
   | Some (Some c) => (i <? zlen dispatch_table) && (0 <=? i) && supported spf dpf && conv_eqb c (conv_of spf dpf scs dcs)
   | Some None => (i <? zlen dispatch_table) && (0 <=? i) && negb (supported spf dpf)
   | None => (zlen dispatch_table <=? i) && negb (supported spf dpf)
   end).

Lemma entries_ok :
  forallb (fun spf => forallb (fun scs => forallb (fun dpf => forallb (fun dcs => entry_ok spf scs dpf dcs)
    all_cs) all_pf) all_cs) all_pf = true.
Proof. vm_compute. reflexivity. Qed.

Lemma entry_all spf scs dpf dcs : entry_ok spf scs dpf dcs = true.
Proof.
  pose proof entries_ok as H. rewrite forallb_forall in H. specialize (H spf (In_all_pf spf)).
  rewrite forallb_forall in H. specialize (H scs (In_all_cs scs)).
  rewrite forallb_forall in H. specialize (H dpf (In_all_pf dpf)).
  rewrite forallb_forall in H. apply H, In_all_cs.
Qed.

Definition planes_u32 (im : image) : Prop := 0 <= i_planes im < 2 ^ 32.

(** [convert_image] by cases. *)
Definition call_converter (impl : conv -> converter) w h (src dst : image) ss sb ds db : M outcome :=
  r <- impl (conv_of (i_pf src) (i_pf dst) (i_cs src) (i_cs dst)) w h
         (u32 (i_planes src - 1)) (strides_or_default ss) sb
         (u32 (i_planes dst - 1)) (strides_or_default ds) db ;;
  ret (if (r : bool) then Success else Err NotEnoughData).

Lemma valid_image_iff im w h :
  valid_image im w h <-> colors_b (i_pf im) (i_cs im) = true /\
                         (valid_num_planes (i_pf im) (i_planes im) /\ valid_size (i_pf im) w h).
Proof. unfold valid_image. rewrite colors_b_ok. tauto. Qed.

Lemma convert_image_cases impl w h src ss sb dst ds db T m :
  planes_u32 src -> planes_u32 dst ->
  let r := convert_image impl w h (format_of src) ss sb (format_of dst) ds db T m in
  (~ (valid_image src w h /\ valid_image dst w h) /\ r = Ok (Err InvalidValue) m) \/
  (valid_image src w h /\ valid_image dst w h /\ supported (i_pf src) (i_pf dst) = false /\
   r = Ok (Err InvalidOperation) m) \/
  (valid_image src w h /\ valid_image dst w h /\ supported (i_pf src) (i_pf dst) = true /\
   r = call_converter impl w h src dst ss sb ds db T m).
Proof.
  intros Hs Hd. unfold planes_u32 in *. cbv zeta.
  unfold convert_image, format_of, image_format_of. cbn [f_pf f_cs f_planes].
  rewrite !modes_ok, !valid_image_iff.
  destruct (colors_b (i_pf src) (i_cs src)) eqn:Cs; cbn [negb orb].
  2:{ left. split; [intros [[? _] _]; discriminate|reflexivity]. }
  destruct (colors_b (i_pf dst) (i_cs dst)) eqn:Cd; cbn [negb].
  2:{ left. split; [intros [_ [? _]]; discriminate|reflexivity]. }
  destruct (is_compatible_ok (i_pf src) w h (i_planes src) T m Hs) as (bs & Es & Bs).
  rewrite (bind_eq T m _ _ _ Es).
  destruct bs; cbn [negb].
  2:{ left. split; [|reflexivity]. intros [[_ H] _]. apply Bs in H. discriminate. }
  destruct (is_compatible_ok (i_pf dst) w h (i_planes dst) T m Hd) as (bd & Ed & Bd).
  rewrite (bind_eq T m _ _ _ Ed).
  destruct bd; cbn [negb].
  2:{ left. split; [|reflexivity]. intros [_ [_ H]]. apply Bd in H. discriminate. }
  right.
  pose proof (entry_all (i_pf src) (i_cs src) (i_pf dst) (i_cs dst)) as E.
  unfold entry_ok in E. rewrite Cs, Cd in E. cbn [andb negb orb] in E.
  fold (img_index (i_pf src) (i_cs src)) (img_index (i_pf dst) (i_cs dst)).
  set (i := get_index (img_index (i_pf src) (i_cs src)) (img_index (i_pf dst) (i_cs dst))) in *.
  cbv zeta in E.
  destruct (nth_error dispatch_table (Z.to_nat i)) as [[c|]|] eqn:En.
  - rewrite !andb_true_iff in E. destruct E as (((E1 & E2) & E3) & E4).
    apply conv_eqb_ok in E4. subst c.
    right. rewrite E3. intuition.
    replace (zlen dispatch_table <=? i) with false by lia.
    unfold index. rewrite E1, E2, En. reflexivity.
  - rewrite !andb_true_iff in E. destruct E as ((E1 & E2) & E3).
    left. apply negb_true_iff in E3. rewrite E3. intuition.
    replace (zlen dispatch_table <=? i) with false by lia.
    unfold index. rewrite E1, E2, En. reflexivity.
  - rewrite !andb_true_iff in E. destruct E as (E1 & E3).
    left. apply negb_true_iff in E3. rewrite E3. intuition.
    rewrite E1. reflexivity.
Qed.
