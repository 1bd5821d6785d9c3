(** get_buffers_size, exactly, and exactly when buffers of its sizes are accepted. *)
From Coq Require Import ZArith List Bool Lia ZifyBool ZifyNat.
Import ListNotations.
From Verif Require Import Base Exec Fmt Dispatch Common Wrappers CpuInfo Lib Sets Spec SetSpec ApiSpec Api WrapperFacts LibFacts SizeFacts
  CallFacts ResultFacts PropFacts SizeProps AcceptSpec AcceptFacts SizeSpec.
Open Scope Z_scope.
Ltac Zify.zify_post_hook ::= Z.div_mod_to_equations.

Lemma code_advertised im w h : valid_num_planes (i_pf im) (i_planes im) ->
  code_sizes im w h = advertised_sizes im w h.
Proof.
  intros V. unfold code_sizes, advertised_sizes, plane_size.
  destruct (i_pf im) eqn:Ep; cbn [valid_num_planes] in V.
  1,2,4: rewrite V; change (1 =? 1) with true; cbv iota; cbn [nth auto_heights];
    rewrite !(eff_stride_at Argb w _ _ w) by reflexivity; f_equal; unfold stride_at; cbn [auto_rows]; lia.
  1,2: rewrite V; change (1 =? 1) with true; cbv iota; cbn [nth auto_heights];
    rewrite (eff_stride_at Rgb w _ 3 0), !(eff_stride_at Rgb w _ _ w) by reflexivity; f_equal; unfold stride_at; cbn [auto_rows]; lia.
  - rewrite V. change (3 =? 1) with false. change (Z.to_nat 3) with 3%nat. cbn [firstn nth auto_heights].
    rewrite !(eff_stride_at I444 w _ _ w) by reflexivity. reflexivity.
  - rewrite V. change (3 =? 1) with false. change (Z.to_nat 3) with 3%nat. cbn [firstn nth auto_heights].
    rewrite (eff_stride_at I422 w _ 0 w), !(eff_stride_at I422 w _ _ (w / 2)) by reflexivity. reflexivity.
  - rewrite V. change (3 =? 1) with false. change (Z.to_nat 3) with 3%nat. cbn [firstn nth auto_heights].
    rewrite (eff_stride_at I420 w _ 0 w), !(eff_stride_at I420 w _ _ (w / 2)) by reflexivity. reflexivity.
  - destruct V as [V|V]; rewrite V.
    + change (1 =? 1) with true. cbv iota. cbn [nth auto_heights].
      rewrite (eff_stride_at Nv12 w _ 2 0), (eff_stride_at Nv12 w _ 3 0), !(eff_stride_at Nv12 w _ _ w) by reflexivity.
      f_equal. lia.
    + change (2 =? 1) with false. change (Z.to_nat 2) with 2%nat. cbn [firstn nth auto_heights].
      rewrite !(eff_stride_at Nv12 w _ _ w) by reflexivity. reflexivity.
Qed.

(** Wrapping arithmetic. *)
Lemma ures_wraps r T m : is_target T -> checked T = false -> ures r T m = Ok (r mod usz T) m.
Proof.
  intros HT C. (unfold ures; cbn [run]). rewrite C. destruct (_ && _) eqn:E; [|reflexivity].
  rewrite Z.mod_small by lia. reflexivity.
Qed.

Lemma sizes_one_wraps a out T m : is_target T -> checked T = false -> (1 <= length out)%nat ->
  sizes_one a out T m =
  Ok (Success, [((a 0%nat + a 1%nat) + (a 2%nat + a 3%nat)) mod usz T] ++ skipn 1 out) m.
Proof.
  intros HT C L. (unfold sizes_one, bind; cbn [run]). rewrite !ures_wraps by auto. rewrite upd0 by auto. (unfold ret; cbn [run]).
  assert (U : usz T <> 0) by (destruct HT as [[E _]|[E _]]; rewrite E; lia).
  rewrite <- (Z.add_mod (a 0%nat) (a 1%nat)), <- (Z.add_mod (a 2%nat) (a 3%nat)), <- Z.add_mod by exact U. reflexivity.
Qed.

Lemma fill_wraps h spec T m : is_target T -> checked T = false -> forall st i out, (length st <= length out)%nat ->
  fill_sizes h spec st i out T m =
  Ok (map (fun k => (nth k st 0 * get_plane_spec h spec (i + Z.of_nat k)) mod usz T) (seq 0 (length st)) ++ skipn (length st) out) m.
Proof.
  intros HT C. induction st as [|s st IH]; intros i out L; [reflexivity|].
  destruct out as [|o out]; cbn [length] in *; [lia|]. cbn [fill_sizes]. (unfold umul, bind; cbn [run]).
  rewrite ures_wraps by auto. rewrite (IH (i + 1)) by lia.
  cbn [ret seq map app skipn]. f_equal. cbn [nth Z.of_nat]. rewrite Z.add_0_r. (unfold ret; cbn [run]). f_equal. f_equal. f_equal.
  rewrite <- seq_shift, map_map. apply map_ext. intros k. cbn [nth].
  replace (i + Z.of_nat (S k)) with (i + 1 + Z.of_nat k) by lia. reflexivity.
Qed.

Lemma firstn_map {A B} (f : A -> B) n l : firstn n (map f l) = map f (firstn n l).
Proof. revert l. induction n; intros [|x l]; cbn [firstn map]; [reflexivity..|]. rewrite IHn. reflexivity. Qed.

Lemma size_wraps T w h im out m : is_target T -> checked T = false ->
  0 <= w < 2 ^ 32 -> 0 <= h < 2 ^ 32 ->
  valid_num_planes (i_pf im) (i_planes im) -> valid_size (i_pf im) w h -> enough_room im out = true ->
  get_buffers_size w h (format_of im) (i_strides im) out T m =
  Ok (Success, map (fun s => s mod usz T) (code_sizes im w h) ++ skipn (Z.to_nat (i_planes im)) out) m.
Proof.
  intros HT C Hw Hh V1 V2 R. pose proof (valid_planes_small _ _ V1) as Hp.
  destruct (get_buffers_size_cases T w h im out m HT Hw Hh ltac:(unfold planes_u32; lia))
    as [[N _]|[(_ & N & _)|(_ & _ & E)]]; [tauto|congruence|]. cbv zeta in E. rewrite E. clear E.
  unfold enough_room, zlen in R. rewrite andb_true_iff in R. destruct R as [_ R].
  unfold code_sizes in *. destruct (i_planes im =? 1) eqn:E1.
  - rewrite sizes_one_wraps by (auto; lia).
    replace (Z.to_nat (i_planes im)) with 1%nat by lia. reflexivity.
  - unfold sizes_many. destruct (many_list im w h (Z.to_nat (i_planes im)) ltac:(lia) ltac:(lia)) as (L & P & Q).
    cbv zeta in *. rewrite (bind_eq T m _ _ _ (fill_wraps h _ T m HT C _ 0 out ltac:(rewrite L; lia))).
    rewrite L. (unfold ret; cbn [run]). f_equal. f_equal. f_equal. rewrite <- Q, map_map. reflexivity.
Qed.

(** In a checked build, sizes that do not fit panic. *)
Lemma size_panics T w h im out m : is_target T -> checked T = true ->
  0 <= w < 2 ^ 32 -> 0 <= h < 2 ^ 32 ->
  match i_strides im with None => True | Some l => Forall (fun s => 0 <= s) l end ->
  valid_num_planes (i_pf im) (i_planes im) -> valid_size (i_pf im) w h -> enough_room im out = true ->
  ~ Forall (fun s => s < usz T) (code_sizes im w h) ->
  get_buffers_size w h (format_of im) (i_strides im) out T m = Fault Overflow.
Proof.
  intros HT C Hw Hh Hs V1 V2 R F. pose proof (valid_planes_small _ _ V1) as Hp.
  destruct (get_buffers_size_cases T w h im out m HT Hw Hh ltac:(unfold planes_u32; lia))
    as [[N _]|[(_ & N & _)|(_ & _ & E)]]; [tauto|congruence|]. cbv zeta in E. rewrite E. clear E.
  unfold enough_room, zlen in R. rewrite andb_true_iff in R. destruct R as [_ R].
  unfold code_sizes in *. destruct (i_planes im =? 1) eqn:E1.
  - set (a := plane_size im w h) in *. (unfold sizes_one, bind; cbn [run]).
    destruct (ures (a 0%nat) T m) as [v0 m0|e0] eqn:E0;
      [apply (ures_checked _ _ _ _ _ C) in E0; destruct E0 as (-> & -> & B0)
      |destruct (ures_shape (a 0%nat) T m) as [[? X]|X]; congruence].
    destruct (ures (a 1%nat) T m) as [v0 m0|e0] eqn:E2;
      [apply (ures_checked _ _ _ _ _ C) in E2; destruct E2 as (-> & -> & B1)
      |destruct (ures_shape (a 1%nat) T m) as [[? X]|X]; congruence].
    destruct (ures (a 0%nat + a 1%nat) T m) as [v0 m0|e0] eqn:E3;
      [apply (ures_checked _ _ _ _ _ C) in E3; destruct E3 as (-> & -> & B2)
      |destruct (ures_shape (a 0%nat + a 1%nat) T m) as [[? X]|X]; congruence].
    destruct (ures (a 2%nat) T m) as [v0 m0|e0] eqn:E4;
      [apply (ures_checked _ _ _ _ _ C) in E4; destruct E4 as (-> & -> & B3)
      |destruct (ures_shape (a 2%nat) T m) as [[? X]|X]; congruence].
    destruct (ures (a 3%nat) T m) as [v0 m0|e0] eqn:E5;
      [apply (ures_checked _ _ _ _ _ C) in E5; destruct E5 as (-> & -> & B4)
      |destruct (ures_shape (a 3%nat) T m) as [[? X]|X]; congruence].
    destruct (ures (a 2%nat + a 3%nat) T m) as [v0 m0|e0] eqn:E6;
      [apply (ures_checked _ _ _ _ _ C) in E6; destruct E6 as (-> & -> & B5)
      |destruct (ures_shape (a 2%nat + a 3%nat) T m) as [[? X]|X]; congruence].
    (unfold ures; cbn [run]). rewrite C. replace (_ && _) with false; [reflexivity|].
    symmetry. apply andb_false_iff. right. apply Z.ltb_ge.
    destruct (Z.lt_ge_cases (a 0%nat + a 1%nat + (a 2%nat + a 3%nat)) (usz T)); [|lia].
    exfalso. apply F. constructor; [assumption|constructor].
  - (unfold sizes_many, bind; cbn [run]). destruct (many_list im w h (Z.to_nat (i_planes im)) ltac:(lia) ltac:(lia)) as (L & P & Q).
    cbv zeta in *. assert (L' : (Z.to_nat (i_planes im) <= length out)%nat) by lia. rewrite <- L in L' at 1.
    destruct (fill_shape h (nth (Z.to_nat (pf_u32 (i_pf im))) HEIGHT_SPECS 0) T m _ 0 out L')
      as [(l & Ll & El)|El]; [|rewrite El; reflexivity].
    exfalso. apply F. rewrite <- Q. apply Forall_forall. intros x Hx. apply in_map_iff in Hx as (k & <- & Hk).
    apply in_seq in Hk.
    clear -El C Hk L' L. revert El.
    set (spec := nth (Z.to_nat (pf_u32 (i_pf im))) HEIGHT_SPECS 0).
    match goal with |- run (fill_sizes _ _ ?l0 _ _) _ _ = _ -> _ => set (st := l0) in * end.
    intros El.
    assert (G : forall st i out r k, (length st <= length out)%nat -> (k < length st)%nat ->
              fill_sizes h spec st i out T m = Ok r m -> nth k st 0 * get_plane_spec h spec (i + Z.of_nat k) < usz T).
    { clear -C. induction st as [|s st IH]; intros i out r k Lo Hk E; [cbn in Hk; lia|].
      destruct out as [|o out]; cbn [length] in *; [lia|]. cbn [fill_sizes] in E. (unfold umul, bind in E; cbn [run] in E).
      destruct (ures (s * get_plane_spec h spec i) T m) as [v m1|] eqn:E1; [|discriminate].
      apply (ures_checked _ _ _ _ _ C) in E1. destruct E1 as (-> & -> & B).
      destruct (fill_sizes h spec st (i + 1) out T m) as [v m1|] eqn:E2; [|discriminate].
      (unfold ret in E; cbn [run] in E). injection E as _ ->.
      destruct k as [|k]; [cbn [nth Z.of_nat]; rewrite Z.add_0_r; lia|]. cbn [nth].
      replace (i + Z.of_nat (S k)) with (i + 1 + Z.of_nat k) by lia.
      eapply IH; [| |exact E2]; lia. }
    eapply G; [exact L'|rewrite L; lia|exact El].
Qed.

Lemma eff_stride_nonneg lim im k row : strides_below lim im -> 0 <= row -> 0 <= eff_stride (i_strides im) k row.
Proof.
  unfold strides_below, eff_stride. destruct (i_strides im) as [l|]; [|lia]. intros F R.
  destruct (nth k l 0 =? 0); [lia|]. destruct (Nat.lt_ge_cases k (length l)).
  - rewrite Forall_nth in F. specialize (F k 0 H). lia.
  - rewrite nth_overflow by lia. lia.
Qed.

Lemma size_exact T w h im out m : is_target T ->
  0 <= w < 2 ^ 32 -> 0 <= h < 2 ^ 32 -> strides_below (usz T) im ->
  valid_num_planes (i_pf im) (i_planes im) -> valid_size (i_pf im) w h ->
  i_planes im <= Z.of_nat (length out) ->
  match i_strides im with None => True | Some l => i_planes im <= Z.of_nat (length l) end ->
  get_buffers_size w h (format_of im) (i_strides im) out T m =
  if checked T && existsb (fun s => usz T <=? s) (advertised_sizes im w h) then Fault Overflow
  else Ok (Success, map (fun s => s mod usz T) (advertised_sizes im w h) ++ skipn (Z.to_nat (i_planes im)) out) m.
Proof.
  intros HT Hw Hh Hs V1 V2 Ho Hl. pose proof (valid_planes_small _ _ V1) as Hp.
  assert (R : enough_room im out = true).
  { unfold enough_room, zlen, strides_list. destruct (i_strides im) as [l|]; [lia|]. cbn [length DEFAULT_STRIDES]. lia. }
  pose proof (strides_nonneg _ _ Hs) as Hn.
  rewrite <- code_advertised by assumption.
  destruct (existsb (fun s => usz T <=? s) (code_sizes im w h)) eqn:E.
  - destruct (checked T) eqn:C; cbn [andb]; [|apply size_wraps; auto].
    apply size_panics; auto. intros F. apply existsb_exists in E as (s & Is & Es).
    rewrite Forall_forall in F. specialize (F s Is). lia.
  - rewrite andb_false_r.
    assert (F : Forall (fun s => s < usz T) (code_sizes im w h)).
    { apply Forall_forall. intros s Is. destruct (Z.lt_ge_cases s (usz T)); [lia|].
      assert (X : existsb (fun s => usz T <=? s) (code_sizes im w h) = true) by (apply existsb_exists; exists s; split; [auto|lia]).
      congruence. }
    rewrite get_buffers_size_exact by auto. f_equal. f_equal. f_equal.
    symmetry. rewrite <- (map_id (code_sizes im w h)) at 2. apply map_ext_in. intros s Is.
    apply Z.mod_small. rewrite Forall_forall in F. split; [|apply F; auto].
    unfold code_sizes in Is. destruct (i_planes im =? 1).
    + cbn [In] in Is. destruct Is as [<-|[]].
      pose proof (plane_size_nonneg im w h 0 ltac:(lia) ltac:(lia) ltac:(lia) Hn).
      pose proof (plane_size_nonneg im w h 1 ltac:(lia) ltac:(lia) ltac:(lia) Hn).
      pose proof (plane_size_nonneg im w h 2 ltac:(lia) ltac:(lia) ltac:(lia) Hn).
      pose proof (plane_size_nonneg im w h 3 ltac:(lia) ltac:(lia) ltac:(lia) Hn). lia.
    + assert (I4 : In s [plane_size im w h 0; plane_size im w h 1; plane_size im w h 2; plane_size im w h 3]).
      { rewrite <- (firstn_skipn (Z.to_nat (i_planes im))). apply in_or_app. auto. }
      cbn [In] in I4. decompose [or] I4; try contradiction; subst s; apply plane_size_nonneg; auto; lia.
Qed.

(** The difference to the documented sizes, for one plane and one stride. *)
Lemma one_plane_difference im w h s : i_planes im = 1 -> valid_num_planes (i_pf im) 1 -> i_strides im = Some [s] -> s <> 0 ->
  exists d, documented_sizes im w h = [d] /\
  advertised_sizes im w h =
  [match i_pf im with
   | Nv12 => d - (s - w) * (h / 2)
   | pf => d + (bytes_per_pixel pf - 1) * w * h
   end].
Proof.
  intros Hp V E N. unfold documented_sizes, advertised_sizes, image_planes, planes. rewrite Hp, E.
  change (Z.to_nat 1) with 1%nat. change (1 =? 1) with true.
  assert (X : forall r, eff_stride (Some [s]) 0 r = s).
  { intros. unfold eff_stride. cbn [nth]. replace (s =? 0) with false by lia. reflexivity. }
  assert (Y : forall k r, (1 <= k)%nat -> eff_stride (Some [s]) k r = r).
  { intros. unfold eff_stride. rewrite nth_overflow by (cbn; lia). reflexivity. }
  destruct (i_pf im); cbn [valid_num_planes] in V; try lia;
    (cbn [seq map filter Nat.eqb g_buf g_stride g_rows fold_right]; rewrite !X, ?Y by lia; eexists; split; [reflexivity|];
     cbn [bytes_per_pixel]; f_equal; lia).
Qed.

Lemma exactly_len im w h bufs k : exactly_sized im w h bufs -> buf_len bufs k = nth k (advertised_sizes im w h) 0.
Proof.
  intros <-. unfold buf_len. change 0 with (Z.of_nat (length (@nil Z))).
  rewrite (map_nth (fun b => Z.of_nat (length b))). reflexivity.
Qed.

Lemma advertised_length im w h : valid_num_planes (i_pf im) (i_planes im) ->
  Z.of_nat (length (advertised_sizes im w h)) = i_planes im.
Proof.
  intros V. rewrite <- code_advertised by auto. rewrite code_sizes_length; pose proof (valid_planes_small _ _ V); lia.
Qed.

Lemma plane_ok len s r row : 0 < r -> row <= s -> s * r <= len -> plane_taken len s r row.
Proof.
  intros R H L. unfold plane_taken. assert (row * (r - 1) <= s * (r - 1)) by (apply Z.mul_le_mono_nonneg_r; lia). lia.
Qed.

Lemma exactly_taken packed im w h bufs : 0 < w -> 0 < h -> (packed = true -> is_rgb (i_pf im) = true) ->
  valid_image im w h -> rows_apart im w h -> strides_given im -> exactly_sized im w h bufs ->
  (image_taken packed im w h bufs <-> ~ padded_nv12 im w).
Proof.
  intros W0 H0 PK V RA SG EX. pose proof (exactly_len im w h bufs) as LN.
  specialize (LN) with (1 := EX). unfold rows_apart in RA. unfold strides_given in SG.
  destruct V as (V0 & V1 & V2).
  assert (Y : forall k r, i_planes im <= Z.of_nat k -> eff_stride (i_strides im) k r = r).
  { intros. unfold eff_stride. destruct (i_strides im) as [l|]; [|reflexivity]. rewrite nth_overflow by lia. reflexivity. }
  unfold image_taken, padded_nv12.
  destruct (i_pf im) eqn:Ep; cbn [valid_num_planes valid_size andb] in *.
  1-8: split; [intros _ (X & _); discriminate|intros _].
  1-8: rewrite Forall_forall in *; intros g Hg; specialize (RA g Hg);
    unfold image_planes, planes in Hg; rewrite Ep in Hg; cbn [In] in Hg; decompose [or] Hg; try contradiction; subst g;
    cbn [g_buf g_base g_stride g_rows g_row bytes_per_pixel] in *; rewrite LN; unfold advertised_sizes; rewrite Ep; cbn [nth];
    rewrite ?(Y 1%nat w), ?(Y 2%nat w), ?(Y 3%nat w), ?(Y 3%nat 0) by lia.
  1-5: apply plane_ok; [lia|destruct packed; lia|].
  1-5: unfold eff_stride in *; destruct (i_strides im) as [l|]; [destruct (nth 0 l 0 =? 0)|];
       match goal with |- ?a * ?b <= _ => try lia; nia end.
  1-9: assert (packed = false) as -> by (destruct packed; [discriminate (PK eq_refl)|reflexivity]).
  1-9: apply plane_ok; lia.
  destruct V1 as [V1|V1]; rewrite V1 in *.
  - change (1 =? 1) with true. cbv iota. cbv zeta. rewrite LN. unfold advertised_sizes. rewrite Ep, V1.
    change (1 =? 1) with true. cbv iota. cbn [nth]. rewrite (Y 1%nat w), (Y 2%nat 0), (Y 3%nat 0) by lia.
    unfold image_planes, planes in RA. rewrite Ep, V1 in RA. change (1 =? 1) with true in RA. cbv iota in RA.
    pose proof (Forall_inv RA) as R0. cbn [g_row g_stride] in R0.
    set (s := eff_stride (i_strides im) 0 w) in *. unfold plane_taken.
    split.
    + intros (A & B & C) (_ & _ & D). apply D. nia.
    + intros N. assert (s = w) by (destruct (Z.eq_dec s w); [auto|exfalso; apply N; auto]).
      split; [nia|]. split; nia.
  - change (2 =? 1) with false. cbv iota. split; [intros _ (_ & X & _); discriminate|intros _].
    rewrite Forall_forall in *; intros g Hg; specialize (RA g Hg).
    unfold image_planes, planes in Hg; rewrite Ep, V1 in Hg. change (2 =? 1) with false in Hg. cbv iota in Hg.
    cbn [In] in Hg; decompose [or] Hg; try contradiction; subst g;
    cbn [g_buf g_base g_stride g_rows g_row bytes_per_pixel] in *; rewrite LN; unfold advertised_sizes; rewrite Ep, V1;
    change (2 =? 1) with false; cbv iota; cbn [nth].
    all: assert (packed = false) as -> by (destruct packed; [discriminate (PK eq_refl)|reflexivity]).
    all: apply plane_ok; lia.
Qed.

Lemma advertised_exactly set T w h src dst sb db : is_target64 T ->
  well_formed (usz T) w h src dst sb db -> 0 < w -> 0 < h ->
  valid_image src w h -> valid_image dst w h -> supported (i_pf src) (i_pf dst) = true ->
  rows_apart src w h -> rows_apart dst w h -> strides_given src -> strides_given dst ->
  exactly_sized src w h sb -> exactly_sized dst w h db ->
  (convert (converters set) T w h src dst sb db = Ok (Err NotEnoughData) (Mem sb db) <->
   padded_nv12 src w \/ padded_nv12 dst w).
Proof.
  intros HT HW W0 H0 Vs Vd S Rs Rd Gs Gd Xs Xd.
  assert (LIM : forall im bufs, buffers_ok (usz T / 2 - 1) bufs -> exactly_sized im w h bufs -> strides_below (usz T) im ->
                i_pf im = Nv12 -> i_planes im = 1 -> eff_stride (i_strides im) 0 w * h < 2 ^ 64).
  { intros im bufs B X SB Ep V1. red in X. unfold advertised_sizes in X. rewrite Ep, V1 in X. change (1 =? 1) with true in X.
    cbv iota in X. destruct bufs as [|b [|]]; try discriminate X. cbn [map] in X.
    apply (f_equal (fun l => nth 0 l 0)) in X. cbn [nth] in X.
    red in B. pose proof (proj1 (Forall_inv B)) as L. red in HT. rewrite (proj1 HT) in L.
    pose proof (eff_stride_nonneg _ im 1 w SB ltac:(lia)). pose proof (eff_stride_nonneg _ im 2 0 SB ltac:(lia)).
    pose proof (eff_stride_nonneg _ im 3 0 SB ltac:(lia)).
    assert (0 <= eff_stride (i_strides im) 1 w * (h / 2)) by (apply Z.mul_nonneg_nonneg; lia).
    assert (0 <= (eff_stride (i_strides im) 2 0 + eff_stride (i_strides im) 3 0) * h) by (apply Z.mul_nonneg_nonneg; lia).
    change (2 ^ 64 / 2 - 1) with (2 ^ 63 - 1) in L. lia. }
  pose proof HW as (Hw & Hh & P1 & P2 & S1 & S2 & B1 & B2).
  rewrite exact_acceptance; auto.
  2:{ intros im [ -> | -> ] E1 E2; [apply (LIM src sb)|apply (LIM dst db)]; auto. }
  unfold buffers_taken. cbv zeta.
  rewrite !exactly_taken by (assumption || (intros PK; apply andb_true_iff in PK; tauto)).
  assert (EN : forall im bufs, valid_image im w h -> strides_given im -> exactly_sized im w h bufs -> enough_planes im bufs).
  { intros im bufs V G X. split.
    - rewrite <- (advertised_length im w h) by apply V. rewrite <- X, map_length. lia.
    - red in G. destruct (i_strides im); [lia|auto]. }
  pose proof (EN src sb Vs Gs Xs). pose proof (EN dst db Vd Gd Xd).
  assert (DEC : forall im, padded_nv12 im w \/ ~ padded_nv12 im w).
  { intros im. unfold padded_nv12. destruct (Z.eq_dec (eff_stride (i_strides im) 0 w) w); [right; tauto|].
    destruct (Z.eq_dec (i_planes im) 1); [|right; tauto]. destruct (i_pf im); auto; right; intros (X & _); discriminate. }
  destruct (DEC src), (DEC dst); tauto.
Qed.

(** The same with the sizes answered by get_buffers_size (without overflow). *)
Lemma sizes_exactly T im w h bufs : is_target T -> 0 <= w < 2 ^ 32 -> 0 <= h < 2 ^ 32 -> planes_u32 im ->
  sizes_of T im w h (map (fun b => Z.of_nat (length b)) bufs) -> Z.of_nat (length bufs) = i_planes im ->
  exactly_sized im w h bufs.
Proof.
  intros HT Hw Hh Hn (out & m & m' & E) L. unfold exactly_sized.
  assert (HT' : is_target (Target (usz T) true (big T))) by exact HT.
  apply get_buffers_size_checked in E; auto. destruct E as (V1 & V2 & R & _ & E).
  rewrite <- code_advertised by auto. rewrite E.
  pose proof (f_equal (@length Z) E) as EL. rewrite map_length, app_length, code_sizes_length, skipn_length in EL
    by (pose proof (valid_planes_small _ _ V1); lia).
  rewrite skipn_all2 by lia. apply app_nil_r.
Qed.

Lemma sizes_accepted_exactly set T w h src dst sb db : is_target64 T ->
  well_formed (usz T) w h src dst sb db -> 0 < w -> 0 < h ->
  valid_image src w h -> valid_image dst w h -> supported (i_pf src) (i_pf dst) = true ->
  rows_apart src w h -> rows_apart dst w h -> strides_given src -> strides_given dst ->
  sizes_of T src w h (map (fun b => Z.of_nat (length b)) sb) -> Z.of_nat (length sb) = i_planes src ->
  sizes_of T dst w h (map (fun b => Z.of_nat (length b)) db) -> Z.of_nat (length db) = i_planes dst ->
  (convert (converters set) T w h src dst sb db = Ok (Err NotEnoughData) (Mem sb db) <->
   padded_nv12 src w \/ padded_nv12 dst w).
Proof.
  intros HT HW W0 H0 Vs Vd S Rs Rd Gs Gd Xs Ls Xd Ld.
  destruct (format_planes_u32 _ _ _ _ _ _ _ HW) as [Us Ud]. pose proof HW as (Hw & Hh & _).
  apply advertised_exactly; auto.
  - exact (sizes_exactly T src w h sb (or_introl HT) Hw Hh Us Xs Ls).
  - exact (sizes_exactly T dst w h db (or_introl HT) Hw Hh Ud Xd Ld).
Qed.
