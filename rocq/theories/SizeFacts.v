(** Facts about get_buffers_size (lib.rs, pixel_format.rs). *)
From Coq Require Import ZArith List Bool Lia ZifyBool ZifyNat.
Import ListNotations.
From Verif Require Import Base Exec Fmt Dispatch Common Wrappers Lib Spec ApiSpec Api WrapperFacts LibFacts.
Open Scope Z_scope.
Ltac Zify.zify_post_hook ::= Z.div_mod_to_equations.

(** Row size and number of rows of the four planes the tables of pixel_format.rs
    give to each format (packed formats are seen as planes of [w] bytes). *)
Definition auto_rows (pf : pixel_format) (w : Z) : list Z :=
  match pf with
  | Argb | Bgra | Rgba => [w; w; w; w]
  | Bgr | Rgb | I444 => [w; w; w; 0]
  | I422 | I420 => [w; w / 2; w / 2; 0]
  | Nv12 => [w; w; 0; 0]
  end.
Definition auto_heights (pf : pixel_format) (h : Z) : list Z :=
  match pf with
  | I420 => [h; h / 2; h / 2; h]
  | Nv12 => [h; h / 2; h; h]
  | _ => [h; h; h; h]
  end.

Definition strides_list (s : option (list Z)) : list Z :=
  match s with Some l => l | None => DEFAULT_STRIDES end.

Definition stride_at (pf : pixel_format) (w : Z) (l : list Z) (i : nat) : Z :=
  if nth i l 0 =? 0 then nth i (auto_rows pf w) 0 else nth i l 0.

(** The product computed for plane [i]. *)
Definition plane_size (im : image) (w h : Z) (i : nat) : Z :=
  stride_at (i_pf im) w (strides_list (i_strides im)) i * nth i (auto_heights (i_pf im) h) 0.

(** What get_buffers_size computes, with unlimited integers. *)
Definition code_sizes (im : image) (w h : Z) : list Z :=
  let a := plane_size im w h in
  if i_planes im =? 1 then [(a 0%nat + a 1%nat) + (a 2%nat + a 3%nat)]
  else firstn (Z.to_nat (i_planes im)) [a 0%nat; a 1%nat; a 2%nat; a 3%nat].

Lemma auto_row pf w i : 0 <= w -> (i < 4)%nat ->
  get_plane_mask (nth (Z.to_nat (pf_u32 pf)) STRIDE_SPECS 0) (Z.of_nat i) *
  get_plane_spec w (nth (Z.to_nat (pf_u32 pf)) STRIDE_SPECS 0) (Z.of_nat i) = nth i (auto_rows pf w) 0.
Proof.
  intros Hw Hi. unfold get_plane_spec.
  destruct pf, i as [|[|[|[|i]]]]; try lia;
    repeat match goal with
    | |- context [get_plane_mask ?a ?b] => let v := eval vm_compute in (get_plane_mask a b) in change (get_plane_mask a b) with v
    | |- context [Z.land (get_plane_value ?a ?b) ?c] =>
        let v := eval vm_compute in (Z.land (get_plane_value a b) c) in change (Z.land (get_plane_value a b) c) with v
    end; cbn [nth auto_rows]; rewrite Z.shiftr_div_pow2 by lia;
    change (2 ^ 0) with 1; change (2 ^ 1) with 2; rewrite ?Z.div_1_r; lia.
Qed.

Lemma auto_height pf h i : 0 <= h -> (i < 4)%nat ->
  get_plane_spec h (nth (Z.to_nat (pf_u32 pf)) HEIGHT_SPECS 0) (Z.of_nat i) = nth i (auto_heights pf h) 0.
Proof.
  intros Hw Hi. unfold get_plane_spec.
  destruct pf, i as [|[|[|[|i]]]]; try lia;
    repeat match goal with
    | |- context [Z.land (get_plane_value ?a ?b) ?c] =>
        let v := eval vm_compute in (Z.land (get_plane_value a b) c) in change (Z.land (get_plane_value a b) c) with v
    end; cbn [nth auto_heights]; rewrite Z.shiftr_div_pow2 by lia;
    change (2 ^ 0) with 1; change (2 ^ 1) with 2; rewrite ?Z.div_1_r; lia.
Qed.

Lemma auto_row_bound pf w i : 0 <= w -> (i < 4)%nat -> 0 <= nth i (auto_rows pf w) 0 <= w.
Proof. intros. destruct pf, i as [|[|[|[|i]]]]; cbn [nth auto_rows]; lia. Qed.
Lemma auto_height_bound pf h i : 0 <= h -> (i < 4)%nat -> 0 <= nth i (auto_heights pf h) 0 <= h.
Proof. intros. destruct pf, i as [|[|[|[|i]]]]; cbn [nth auto_heights]; lia. Qed.

Lemma ures_small r T m : 0 <= r < usz T -> ures r T m = Ok r m.
Proof. intros. (unfold ures; cbn [run]). replace ((0 <=? r) && (r <? usz T)) with true by lia. reflexivity. Qed.

Lemma usz_u32 T x : is_target T -> 0 <= x < 2 ^ 32 -> 0 <= x < usz T.
Proof. intros [[H _]|[H _]]; rewrite H; lia. Qed.

Lemma plane_stride_ok pf w l i T m : is_target T -> 0 <= w < 2 ^ 32 -> (i < 4)%nat ->
  plane_stride (nth (Z.to_nat (pf_u32 pf)) STRIDE_SPECS 0) w l (Z.of_nat i) T m =
  Ok (stride_at pf w l i) m.
Proof.
  intros HT Hw Hi. unfold plane_stride, stride_at, STRIDE_AUTO. rewrite Nat2Z.id.
  unfold umul. rewrite auto_row by lia.
  pose proof (auto_row_bound pf w i ltac:(lia) Hi).
  pose proof (usz_u32 T (nth i (auto_rows pf w) 0) HT ltac:(lia)).
  destruct (zlen l <=? Z.of_nat i) eqn:E; cbn [orb].
  - assert (nth i l 0 = 0) as -> by (apply nth_overflow; unfold zlen in E; lia).
    rewrite Z.eqb_refl. apply ures_small; auto.
  - destruct (nth i l 0 =? 0); [apply ures_small; auto|reflexivity].
Qed.

(** The test before anything is written. *)
Definition enough_room (im : image) (out : list Z) : bool :=
  (i_planes im <=? zlen (strides_list (i_strides im))) && (i_planes im <=? zlen out).

Lemma valid_planes_small pf n : valid_num_planes pf n -> 1 <= n <= 3.
Proof. destruct pf; cbn [valid_num_planes]; lia. Qed.

(** get_buffers_size by cases, up to the multiplications. *)
Definition sizes_one (a : nat -> Z) (out : list Z) : M (outcome * list Z) :=
  a0 <- ures (a 0%nat) ;; a1 <- ures (a 1%nat) ;; a01 <- ures (a0 + a1) ;;
  a2 <- ures (a 2%nat) ;; a3 <- ures (a 3%nat) ;; a23 <- ures (a2 + a3) ;;
  s <- ures (a01 + a23) ;;
  ret (Success, upd out 0 s).
Definition sizes_many (im : image) (w h : Z) (out : list Z) : M (outcome * list Z) :=
  let st := stride_at (i_pf im) w (strides_list (i_strides im)) in
  s <- fill_sizes h (nth (Z.to_nat (pf_u32 (i_pf im))) HEIGHT_SPECS 0)
         (firstn (Z.to_nat (i_planes im)) [st 0%nat; st 1%nat; st 2%nat; st 3%nat]) 0 out ;;
  ret (Success, s).

Lemma get_buffers_size_cases T w h im out m : is_target T ->
  0 <= w < 2 ^ 32 -> 0 <= h < 2 ^ 32 -> planes_u32 im ->
  let r := get_buffers_size w h (format_of im) (i_strides im) out T m in
  (~ (valid_num_planes (i_pf im) (i_planes im) /\ valid_size (i_pf im) w h) /\ r = Ok (Err InvalidValue, out) m) \/
  ((valid_num_planes (i_pf im) (i_planes im) /\ valid_size (i_pf im) w h) /\ enough_room im out = false /\
   r = Ok (Err NotEnoughData, out) m) \/
  ((valid_num_planes (i_pf im) (i_planes im) /\ valid_size (i_pf im) w h) /\ enough_room im out = true /\
   r = (if i_planes im =? 1 then sizes_one (plane_size im w h) out T m else sizes_many im w h out T m)).
Proof.
  intros HT Hw Hh Hn. cbv zeta. unfold get_buffers_size, format_of, image_format_of. cbn [f_pf f_planes].
  destruct (is_compatible_ok (i_pf im) w h (i_planes im) T m Hn) as (b & E & B).
  rewrite (bind_eq T m _ _ _ E). destruct b; cbn [negb].
  2:{ left. split; [|reflexivity]. intros V. apply B in V. discriminate. }
  assert (V : valid_num_planes (i_pf im) (i_planes im) /\ valid_size (i_pf im) w h) by (apply B; reflexivity).
  right. pose proof (valid_planes_small _ _ (proj1 V)) as Hp.
  rewrite u32_last by lia.
  fold (strides_list (i_strides im)).
  unfold pf_get_buffers_size, MAX_NUMBER_OF_PLANES.
  unfold enough_room.
  set (l := strides_list (i_strides im)).
  destruct (i_planes im <=? zlen l) eqn:E1; cbn [andb].
  2:{ left. split; [auto|]. split; [auto|].
      replace ((4 <=? i_planes im - 1) || (zlen l <=? i_planes im - 1) || (zlen out <=? i_planes im - 1)) with true by lia.
      reflexivity. }
  destruct (i_planes im <=? zlen out) eqn:E2.
  2:{ left. split; [auto|]. split; [auto|].
      replace ((4 <=? i_planes im - 1) || (zlen l <=? i_planes im - 1) || (zlen out <=? i_planes im - 1)) with true by lia.
      reflexivity. }
  right. split; [auto|]. split; [auto|].
  replace ((4 <=? i_planes im - 1) || (zlen l <=? i_planes im - 1) || (zlen out <=? i_planes im - 1)) with false by lia.
  set (spec := nth (Z.to_nat (pf_u32 (i_pf im))) STRIDE_SPECS 0).
  set (hspec := nth (Z.to_nat (pf_u32 (i_pf im))) HEIGHT_SPECS 0).
  assert (I1 : index STRIDE_SPECS (pf_u32 (i_pf im)) T m = Ok spec m) by (unfold spec; destruct (i_pf im); reflexivity).
  assert (I2 : index HEIGHT_SPECS (pf_u32 (i_pf im)) T m = Ok hspec m) by (unfold hspec; destruct (i_pf im); reflexivity).
  pose proof (fun i Hi => plane_stride_ok (i_pf im) w l i T m HT Hw Hi) as PS. fold spec in PS.
  pose proof (fun i Hi => auto_height (i_pf im) h i ltac:(lia) Hi) as AH. fold hspec in AH.
  assert (BB : forall (A B C : Type) (x : M A) (f : A -> M B) (g : B -> M C), bind (bind x f) g T m = bind x (fun a => bind (f a) g) T m).
  { intros. (unfold bind; cbn [run]). destruct (x T m); reflexivity. }
  rewrite BB, (bind_eq T m _ _ _ I1).
  rewrite BB. change 0 with (Z.of_nat 0) at 1. rewrite (bind_eq T m _ _ _ (PS 0%nat ltac:(lia))).
  rewrite BB. change 1 with (Z.of_nat 1) at 1. rewrite (bind_eq T m _ _ _ (PS 1%nat ltac:(lia))).
  rewrite BB. change 2 with (Z.of_nat 2) at 1. rewrite (bind_eq T m _ _ _ (PS 2%nat ltac:(lia))).
  rewrite BB. change 3 with (Z.of_nat 3) at 1. rewrite (bind_eq T m _ _ _ (PS 3%nat ltac:(lia))).
  rewrite BB, (bind_eq T m _ _ _ I2).
  replace (i_planes im - 1 =? 0) with (i_planes im =? 1) by lia.
  replace (i_planes im - 1 + 1) with (i_planes im) by lia.
  destruct (i_planes im =? 1).
  - (unfold sizes_one, umul, uadd, bind, plane_size; cbn [run]). fold l.
    pose proof (AH 0%nat ltac:(lia)) as A0. pose proof (AH 1%nat ltac:(lia)) as A1.
    pose proof (AH 2%nat ltac:(lia)) as A2. pose proof (AH 3%nat ltac:(lia)) as A3.
    cbn [Z.of_nat Pos.of_succ_nat Pos.succ] in A0, A1, A2, A3. rewrite A0, A1, A2, A3.
    destruct (ures (_ * nth 0 _ 0) T m) as [? ?|]; [|reflexivity].
    destruct (ures (_ * nth 1 _ 0) T _) as [? ?|]; [|reflexivity].
    destruct (ures _ T _) as [? ?|]; [|reflexivity].
    destruct (ures (_ * nth 2 _ 0) T _) as [? ?|]; [|reflexivity].
    destruct (ures (_ * nth 3 _ 0) T _) as [? ?|]; [|reflexivity].
    destruct (ures _ T _) as [? ?|]; [|reflexivity].
    destruct (ures _ T _) as [? ?|]; reflexivity.
  - unfold sizes_many. fold l hspec. (unfold bind; cbn [run]). destruct (fill_sizes _ _ _ _ _ _ _); reflexivity.
Qed.

Lemma plane_size_nonneg im w h i : 0 <= w -> 0 <= h -> (i < 4)%nat ->
  match i_strides im with None => True | Some l => Forall (fun s => 0 <= s) l end -> 0 <= plane_size im w h i.
Proof.
  intros Hw Hh Hi Hl. unfold plane_size, stride_at. apply Z.mul_nonneg_nonneg.
  - pose proof (auto_row_bound (i_pf im) w i Hw Hi).
    destruct (nth i (strides_list (i_strides im)) 0 =? 0) eqn:E; [lia|].
    destruct (i_strides im) as [l|]; cbn [strides_list] in *.
    + destruct (Nat.lt_ge_cases i (length l)).
      * rewrite Forall_nth in Hl. apply Hl; auto.
      * rewrite nth_overflow by auto. lia.
    + destruct i as [|[|[|[|i]]]]; cbn in E; discriminate || lia.
  - pose proof (auto_height_bound (i_pf im) h i Hh Hi). lia.
Qed.

Lemma strides_nonneg lim im : strides_below lim im ->
  match i_strides im with None => True | Some l => Forall (fun s => 0 <= s) l end.
Proof.
  unfold strides_below. destruct (i_strides im); auto. intros H. eapply Forall_impl; [|exact H].
  cbn. intros. lia.
Qed.

Lemma ures_checked r T m v m' : checked T = true -> ures r T m = Ok v m' -> v = r /\ m' = m /\ 0 <= r < usz T.
Proof.
  intros C. (unfold ures; cbn [run]). rewrite C. destruct (_ && _) eqn:E; [|discriminate].
  intros H. inversion H; subst. repeat split; lia.
Qed.

Lemma ures_shape r T m : (exists v, ures r T m = Ok v m) \/ ures r T m = Fault Overflow.
Proof. (unfold ures; cbn [run]). destruct (_ && _); eauto. destruct (checked T); eauto. Qed.

Lemma upd0 (out : list Z) s : (1 <= length out)%nat -> upd out 0 s = [s] ++ skipn 1 out.
Proof. destruct out; cbn; [lia|reflexivity]. Qed.

(** *** The results, exactly *)

Lemma sizes_one_exact a out T m : (1 <= length out)%nat ->
  (forall i, (i < 4)%nat -> 0 <= a i) -> (a 0%nat + a 1%nat) + (a 2%nat + a 3%nat) < usz T ->
  sizes_one a out T m = Ok (Success, [(a 0%nat + a 1%nat) + (a 2%nat + a 3%nat)] ++ skipn 1 out) m.
Proof.
  intros L P B. pose proof (P 0%nat ltac:(lia)). pose proof (P 1%nat ltac:(lia)).
  pose proof (P 2%nat ltac:(lia)). pose proof (P 3%nat ltac:(lia)).
  (unfold sizes_one, bind; cbn [run]). rewrite !ures_small by lia. cbn [run ret]. rewrite upd0 by auto. reflexivity.
Qed.

Lemma sizes_one_checked a out T m r m' : (1 <= length out)%nat -> checked T = true ->
  sizes_one a out T m = Ok r m' ->
  m' = m /\ r = (Success, [(a 0%nat + a 1%nat) + (a 2%nat + a 3%nat)] ++ skipn 1 out).
Proof.
  intros L C. (unfold sizes_one, bind; cbn [run]).
  repeat (match goal with |- context [run (ures ?x) T ?mm] =>
    let E := fresh in destruct (ures x T mm) eqn:E; [|discriminate];
    apply (ures_checked _ _ _ _ _ C) in E; destruct E as (? & ? & ?) end; subst; cbn [run]).
  cbn [ret run]. intros E. inversion E; subst. rewrite upd0 by auto. auto.
Qed.

Lemma sizes_one_shape a out T m : (1 <= length out)%nat ->
  (exists s, sizes_one a out T m = Ok (Success, [s] ++ skipn 1 out) m) \/ sizes_one a out T m = Fault Overflow.
Proof.
  intros L. (unfold sizes_one, bind; cbn [run]).
  repeat (match goal with |- context [run (ures ?x) T m] =>
    let E := fresh in destruct (ures_shape x T m) as [[? E]|E]; rewrite E; clear E; [|right; reflexivity] end).
  left. cbn [run ret]. rewrite upd0 by auto. eauto.
Qed.

Lemma fill_exact h spec T m : forall st i out, (length st <= length out)%nat ->
  (forall k, (k < length st)%nat -> 0 <= nth k st 0 * get_plane_spec h spec (i + Z.of_nat k) < usz T) ->
  fill_sizes h spec st i out T m =
  Ok (map (fun k => nth k st 0 * get_plane_spec h spec (i + Z.of_nat k)) (seq 0 (length st)) ++ skipn (length st) out) m.
Proof.
  induction st as [|s st IH]; intros i out L B; [reflexivity|].
  destruct out as [|o out]; cbn [length] in *; [lia|]. cbn [fill_sizes]. (unfold umul, bind; cbn [run]).
  assert (B0 := B 0%nat ltac:(lia)). cbn [nth Z.of_nat] in B0. rewrite Z.add_0_r in B0.
  rewrite ures_small by auto. rewrite (IH (i + 1)).
  - cbn [ret seq map app skipn]. f_equal. cbn [nth Z.of_nat]. rewrite Z.add_0_r. (unfold ret; cbn [run]). f_equal. f_equal. f_equal.
    rewrite <- seq_shift, map_map. apply map_ext. intros k. cbn [nth].
    replace (i + Z.of_nat (S k)) with (i + 1 + Z.of_nat k) by lia. reflexivity.
  - lia.
  - intros k Hk. specialize (B (S k) ltac:(lia)). cbn [nth] in B.
    replace (i + 1 + Z.of_nat k) with (i + Z.of_nat (S k)) by lia. exact B.
Qed.

Lemma fill_checked h spec T m : checked T = true -> forall st i out r m', (length st <= length out)%nat ->
  fill_sizes h spec st i out T m = Ok r m' ->
  m' = m /\ r = map (fun k => nth k st 0 * get_plane_spec h spec (i + Z.of_nat k)) (seq 0 (length st)) ++ skipn (length st) out.
Proof.
  intros C. induction st as [|s st IH]; intros i out r m' L E.
  { cbn in E. inversion E; auto. }
  destruct out as [|o out]; cbn [length] in *; [lia|]. cbn [fill_sizes] in E. (unfold umul, bind in E; cbn [run] in E).
  destruct (ures (s * get_plane_spec h spec i) T m) as [v m1|] eqn:E1; [|discriminate].
  apply (ures_checked _ _ _ _ _ C) in E1. destruct E1 as (-> & -> & _).
  destruct (fill_sizes h spec st (i + 1) out T m) as [v m1|] eqn:E2; [|discriminate].
  apply IH in E2; [|lia]. destruct E2 as (-> & ->). (unfold ret in E; cbn [run] in E). inversion E; subst.
  split; auto. cbn [seq map app skipn nth Z.of_nat]. rewrite Z.add_0_r. f_equal. f_equal.
  rewrite <- seq_shift, map_map. apply map_ext. intros k. cbn [nth].
  replace (i + Z.of_nat (S k)) with (i + 1 + Z.of_nat k) by lia. reflexivity.
Qed.

Lemma fill_shape h spec T m : forall st i out, (length st <= length out)%nat ->
  (exists l, length l = length st /\ fill_sizes h spec st i out T m = Ok (l ++ skipn (length st) out) m) \/
  fill_sizes h spec st i out T m = Fault Overflow.
Proof.
  induction st as [|s st IH]; intros i out L; [left; exists []; split; reflexivity|].
  destruct out as [|o out]; cbn [length] in *; [lia|]. cbn [fill_sizes]. (unfold umul, bind; cbn [run]).
  destruct (ures_shape (s * get_plane_spec h spec i) T m) as [[v E]|E]; rewrite E; [|right; reflexivity].
  destruct (IH (i + 1) out ltac:(lia)) as [(l & Ll & El)|El]; rewrite El; [|right; reflexivity].
  left. exists (v :: l). cbn [length app skipn]. split; [lia|reflexivity].
Qed.

Lemma many_list im w h n : (n <= 4)%nat -> 0 <= h ->
  let st := stride_at (i_pf im) w (strides_list (i_strides im)) in
  let l := firstn n [st 0%nat; st 1%nat; st 2%nat; st 3%nat] in
  length l = n /\
  (forall k, (k < n)%nat -> nth k l 0 * get_plane_spec h (nth (Z.to_nat (pf_u32 (i_pf im))) HEIGHT_SPECS 0) (0 + Z.of_nat k)
                            = plane_size im w h k) /\
  map (fun k => nth k l 0 * get_plane_spec h (nth (Z.to_nat (pf_u32 (i_pf im))) HEIGHT_SPECS 0) (0 + Z.of_nat k)) (seq 0 n) =
  firstn n [plane_size im w h 0; plane_size im w h 1; plane_size im w h 2; plane_size im w h 3].
Proof.
  intros Hn Hh st l. assert (L : length l = n) by (unfold l; rewrite firstn_length; cbn [length]; lia).
  assert (P : forall k, (k < n)%nat ->
    nth k l 0 * get_plane_spec h (nth (Z.to_nat (pf_u32 (i_pf im))) HEIGHT_SPECS 0) (0 + Z.of_nat k) = plane_size im w h k).
  { intros k Hk. rewrite Z.add_0_l. rewrite auto_height by lia. unfold plane_size. f_equal. (unfold l, st; cbn [run]).
    destruct n as [|[|[|[|[|n]]]]], k as [|[|[|[|k]]]]; try lia; reflexivity. }
  split; [auto|]. split; [auto|].
  rewrite (map_ext_in _ (plane_size im w h)).
  2:{ intros k Hk. apply in_seq in Hk. apply P. lia. }
  destruct n as [|[|[|[|[|n]]]]]; try lia; reflexivity.
Qed.

Lemma nth_firstn_lt (l : list Z) n k : (k < n)%nat -> nth k (firstn n l) 0 = nth k l 0.
Proof.
  revert n k. induction l as [|x l IH]; intros [|n] [|k] H; try lia; try reflexivity.
  cbn [firstn nth]. apply IH. lia.
Qed.

Lemma code_sizes_length im w h : 1 <= i_planes im <= 3 -> length (code_sizes im w h) = Z.to_nat (i_planes im).
Proof.
  intros H. unfold code_sizes. destruct (i_planes im =? 1) eqn:E; [cbn [length]; lia|].
  rewrite firstn_length. cbn [length]. lia.
Qed.

(** Values that fit: the answer is [code_sizes]. *)
Lemma get_buffers_size_exact T w h im out m : is_target T ->
  0 <= w < 2 ^ 32 -> 0 <= h < 2 ^ 32 ->
  match i_strides im with None => True | Some l => Forall (fun s => 0 <= s) l end ->
  valid_num_planes (i_pf im) (i_planes im) -> valid_size (i_pf im) w h -> enough_room im out = true ->
  Forall (fun s => s < usz T) (code_sizes im w h) ->
  get_buffers_size w h (format_of im) (i_strides im) out T m =
  Ok (Success, code_sizes im w h ++ skipn (Z.to_nat (i_planes im)) out) m.
Proof.
  intros HT Hw Hh Hs V1 V2 R F. pose proof (valid_planes_small _ _ V1) as Hp.
  destruct (get_buffers_size_cases T w h im out m HT Hw Hh ltac:(unfold planes_u32; lia))
    as [[N _]|[(_ & N & _)|(_ & _ & E)]]; [tauto|congruence|]. cbv zeta in E. rewrite E. clear E.
  unfold enough_room, zlen in R. rewrite andb_true_iff in R. destruct R as [_ R].
  unfold code_sizes in *. destruct (i_planes im =? 1) eqn:E1.
  - rewrite sizes_one_exact.
    + replace (Z.to_nat (i_planes im)) with 1%nat by lia. reflexivity.
    + lia.
    + intros. apply plane_size_nonneg; auto; lia.
    + inversion F; auto.
  - unfold sizes_many. destruct (many_list im w h (Z.to_nat (i_planes im)) ltac:(lia) ltac:(lia)) as (L & P & Q).
    cbv zeta in *. rewrite (bind_eq T m _ _ _ (fill_exact h _ T m _ 0 out ltac:(rewrite L; lia)
      ltac:(intros k Hk; rewrite L in Hk; rewrite (P k Hk);
            rewrite Forall_nth in F; split; [apply plane_size_nonneg; auto; lia|];
            specialize (F k 0); rewrite firstn_length in F; cbn [length] in F; specialize (F ltac:(lia));
            rewrite nth_firstn_lt in F by lia;
            destruct k as [|[|[|[|k]]]]; try lia; exact F))).
    rewrite L, Q. reflexivity.
Qed.

Lemma get_buffers_size_checked T w h im out m r m' : is_target T -> checked T = true ->
  0 <= w < 2 ^ 32 -> 0 <= h < 2 ^ 32 -> planes_u32 im ->
  get_buffers_size w h (format_of im) (i_strides im) out T m = Ok (Success, r) m' ->
  valid_num_planes (i_pf im) (i_planes im) /\ valid_size (i_pf im) w h /\ enough_room im out = true /\
  m' = m /\ r = code_sizes im w h ++ skipn (Z.to_nat (i_planes im)) out.
Proof.
  intros HT C Hw Hh Hn E. 
  destruct (get_buffers_size_cases T w h im out m HT Hw Hh Hn)
    as [[N E']|[(_ & N & E')|(V & R & E')]]; cbv zeta in E'; [congruence|congruence|]. rewrite E' in E. clear E'.
  pose proof (valid_planes_small _ _ (proj1 V)) as Hp.
  destruct V as [V1 V2]. split; [auto|]. split; [auto|]. split; [auto|].
  unfold enough_room, zlen in R. rewrite andb_true_iff in R. destruct R as [_ R].
  unfold code_sizes. destruct (i_planes im =? 1) eqn:E1.
  - apply sizes_one_checked in E; [|lia|auto]. destruct E as [-> E]. split; auto.
    replace (Z.to_nat (i_planes im)) with 1%nat by lia. congruence.
  - (unfold sizes_many, bind in E; cbn [run] in E). destruct (many_list im w h (Z.to_nat (i_planes im)) ltac:(lia) ltac:(lia)) as (L & P & Q).
    cbv zeta in *.
    destruct (fill_sizes _ _ _ _ _ _ _) as [s m1|] eqn:E2 in E; [|discriminate].
    apply fill_checked in E2; [|auto|rewrite L; lia]. destruct E2 as [-> ->].
    rewrite L, Q in E. (unfold ret in E; cbn [run] in E). inversion E; auto.
Qed.

Lemma get_buffers_size_shape T w h im out m : is_target T ->
  0 <= w < 2 ^ 32 -> 0 <= h < 2 ^ 32 -> planes_u32 im ->
  let r := get_buffers_size w h (format_of im) (i_strides im) out T m in
  (exists e, r = Ok (Err e, out) m) \/
  (exists l, length l = Z.to_nat (i_planes im) /\ i_planes im <= zlen out /\
     r = Ok (Success, l ++ skipn (Z.to_nat (i_planes im)) out) m) \/
  r = Fault Overflow.
Proof.
  intros HT Hw Hh Hn. cbv zeta.
  destruct (get_buffers_size_cases T w h im out m HT Hw Hh Hn)
    as [[N E]|[(_ & N & E)|(V & R & E)]]; cbv zeta in E; [left; eauto|left; eauto|]. right. rewrite E. clear E.
  pose proof (valid_planes_small _ _ (proj1 V)) as Hp.
  unfold enough_room in R. rewrite andb_true_iff in R. destruct R as [_ R]. unfold zlen in *.
  destruct (i_planes im =? 1) eqn:E1.
  - destruct (sizes_one_shape (plane_size im w h) out T m ltac:(lia)) as [[s E]|E]; rewrite E; auto.
    left. exists [s]. replace (Z.to_nat (i_planes im)) with 1%nat by lia. repeat split; cbn [length]; lia.
  - unfold sizes_many. destruct (many_list im w h (Z.to_nat (i_planes im)) ltac:(lia) ltac:(lia)) as (L & P & Q).
    cbv zeta in *. assert (L' : (Z.to_nat (i_planes im) <= length out)%nat) by lia. rewrite <- L in L' at 1.
    destruct (fill_shape h (nth (Z.to_nat (pf_u32 (i_pf im))) HEIGHT_SPECS 0) T m _ 0 out L')
      as [(l & Ll & El)|El].
    + left. exists l. split; [congruence|]. split; [lia|]. rewrite (bind_eq T m _ _ _ El), L. reflexivity.
    + right. (unfold bind; cbn [run]). rewrite El. reflexivity.
Qed.

(** *** Comparison with the documented sizes *)

Lemma eff_stride_at pf w strides i r :
  nth i (auto_rows pf w) 0 = r -> eff_stride strides i r = stride_at pf w (strides_list strides) i.
Proof.
  intros E. unfold eff_stride, stride_at. destruct strides as [l|]; cbn [strides_list]; rewrite E; [reflexivity|].
  assert (nth i DEFAULT_STRIDES 0 = 0) as -> by (destruct i as [|[|[|[|[|i]]]]]; reflexivity). reflexivity.
Qed.

Lemma code_documented im w h : valid_num_planes (i_pf im) (i_planes im) ->
  i_strides im = None \/ 1 < i_planes im -> code_sizes im w h = documented_sizes im w h.
Proof.
  intros V H. pose proof (valid_planes_small _ _ V) as Hp.
  unfold code_sizes, documented_sizes, image_planes, planes, plane_size.
  assert (i_planes im = 1 \/ i_planes im = 2 \/ i_planes im = 3) as [E|[E|E]] by lia; rewrite E in *;
    [destruct H as [H|H]; [|lia]; rewrite H| |].
  - change (1 =? 1) with true. change (Z.to_nat 1) with 1%nat.
    destruct (i_pf im); cbn [valid_num_planes] in V; try lia;
      cbn [seq map filter Nat.eqb g_buf g_stride g_rows fold_right nth auto_heights auto_rows eff_stride strides_list bytes_per_pixel];
      unfold stride_at; cbn [nth auto_rows DEFAULT_STRIDES]; unfold STRIDE_AUTO; change (0 =? 0) with true; cbv iota;
      f_equal; lia.
  - change (2 =? 1) with false. change (Z.to_nat 2) with 2%nat.
    destruct (i_pf im) eqn:Ep; cbn [valid_num_planes] in V; try lia.
    cbn [seq map filter Nat.eqb g_buf g_stride g_rows fold_right firstn nth auto_heights].
    rewrite !(eff_stride_at Nv12 w _ _ w) by reflexivity. rewrite !Z.add_0_r. reflexivity.
  - change (3 =? 1) with false. change (Z.to_nat 3) with 3%nat.
    destruct (i_pf im) eqn:Ep; cbn [valid_num_planes] in V; try lia;
    cbn [seq map filter Nat.eqb g_buf g_stride g_rows fold_right firstn nth auto_heights];
    [rewrite !(eff_stride_at I444 w _ _ w) by reflexivity
    |rewrite (eff_stride_at I422 w _ 0 w), !(eff_stride_at I422 w _ _ (w / 2)) by reflexivity
    |rewrite (eff_stride_at I420 w _ 0 w), !(eff_stride_at I420 w _ _ (w / 2)) by reflexivity];
    rewrite !Z.add_0_r; reflexivity.
Qed.
