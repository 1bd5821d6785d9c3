(** [convert_image] is the reference implementation: proofs. *)
From Coq Require Import ZArith List Bool Lia.
Import ListNotations.
From Verif Require SetProofs.
From Verif Require Import Base Fmt CpuInfo Lib Sets Spec SimdSpec SetSpec ApiSpec Api AcceptSpec ReachSpec InsideFacts
  PropFacts CallFacts FinalProofs CApiFacts RefSpec.
Open Scope Z_scope.

Definition outcome_of (a : answer) : outcome :=
  match a with
  | Done => Success
  | Invalid_value => Err InvalidValue
  | Invalid_operation => Err InvalidOperation
  | Not_enough_data => Err NotEnoughData
  end.

(** ** Checks *)
Lemma image_ok_valid im w h : image_ok im w h = true <-> valid_image im w h.
Proof.
  unfold image_ok, valid_image, valid_colors. rewrite !andb_true_iff.
  assert (A : colors_ok (i_pf im) (i_cs im) = true <-> (is_rgb (i_pf im) = true <-> i_cs im = CsRgb)).
  { unfold colors_ok. destruct (i_cs im), (is_rgb (i_pf im)); cbn; intuition congruence. }
  assert (B : planes_ok (i_pf im) (i_planes im) = true <-> valid_num_planes (i_pf im) (i_planes im)).
  { unfold planes_ok, valid_num_planes. destruct (i_pf im); rewrite ?orb_true_iff, ?Z.eqb_eq; tauto. }
  assert (C : size_ok (i_pf im) w h = true <-> valid_size (i_pf im) w h).
  { unfold size_ok, valid_size. destruct (i_pf im); rewrite ?andb_true_iff, ?Z.eqb_eq; tauto. }
  tauto.
Qed.

Lemma enough_planes_ok im bufs : enough im bufs = true <-> enough_planes im bufs.
Proof.
  unfold enough, enough_planes. rewrite andb_true_iff, Z.leb_le.
  destruct (i_strides im); rewrite ?Z.leb_le; tauto.
Qed.

Lemma buffers_large_taken packed im w h bufs : buffers_large packed im w h bufs = true <-> image_taken packed im w h bufs.
Proof.
  unfold buffers_large, image_taken, plane_ok, plane_taken.
  assert (F : forallb (fun g => g_stride g + (if packed then w else g_row g) * (g_rows g - 1) <=? buf_len bufs (g_buf g)) (image_planes im w h) = true <->
              Forall (fun g => g_stride g + (if packed then w else g_row g) * (g_rows g - 1) <= buf_len bufs (g_buf g)) (image_planes im w h)).
  { rewrite forallb_forall, Forall_forall. split; intros H g I; specialize (H g I); apply Z.leb_le; exact H. }
  destruct (i_pf im) eqn:E; cbn [andb]; try exact F.
  destruct (i_planes im =? 1); [|exact F]. rewrite !andb_true_iff, !Z.leb_le. tauto.
Qed.

(** ** Bytes *)
Lemma new_bytes_nth f : forall b a i, (i < length b)%nat -> nth i (new_bytes f a b) 0 = f (a + Z.of_nat i) (nth i b 0).
Proof.
  induction b as [|v b IH]; intros a [|i] H; cbn [length] in H; try lia; cbn [new_bytes nth].
  - rewrite Z.add_0_r. reflexivity.
  - rewrite IH by lia. f_equal. lia.
Qed.
Lemma new_bytes_length f : forall b a, length (new_bytes f a b) = length b.
Proof. induction b; intros; cbn; auto. Qed.
Lemma new_buffers_nth f : forall bufs n i, (i < length bufs)%nat -> nth i (new_buffers f n bufs) [] = new_bytes (f (n + i)%nat) 0 (nth i bufs []).
Proof.
  induction bufs as [|b bufs IH]; intros n [|i] H; cbn [length] in H; try lia; cbn [new_buffers nth].
  - rewrite Nat.add_0_r. reflexivity.
  - rewrite IH by lia. f_equal. f_equal. lia.
Qed.
Lemma new_buffers_length f : forall bufs n, length (new_buffers f n bufs) = length bufs.
Proof. induction bufs; intros; cbn; auto. Qed.

Lemma locate_some gs : forall p n a q y j, locate gs p n a = Some (q, y, j) ->
  exists g, nth_error gs (q - p) = Some g /\ (p <= q)%nat /\ n = g_buf g /\ y < g_rows g /\ j < g_row g /\
            0 <= a - g_base g /\ y = (a - g_base g) / g_stride g /\ j = (a - g_base g) mod g_stride g.
Proof.
  induction gs as [|g gs IH]; intros p n a q y j H; cbn [locate] in H; [discriminate|].
  destruct (Nat.eqb n (g_buf g) && _ && _ && _) eqn:E.
  - rewrite !andb_true_iff, Nat.eqb_eq, Z.leb_le, !Z.ltb_lt in E.
    apply (f_equal (fun o => match o with Some x => x | None => (q, y, j) end)) in H. rewrite !pair_equal_spec in H.
    destruct H as ((<- & <-) & <-). exists g. rewrite Nat.sub_diag. cbn [nth_error]. intuition.
  - destruct (IH _ _ _ _ _ _ H) as (g' & N & L & R). exists g'.
    replace (q - p)%nat with (S (q - S p)) by lia. cbn [nth_error]. split; [assumption|]. split; [lia|exact R].
Qed.

Lemma locate_none gs : forall p n a, locate gs p n a = None -> Forall (fun g => 0 < g_row g <= g_stride g) gs ->
  forall g y j, In g gs -> n = g_buf g -> 0 <= y < g_rows g -> 0 <= j < g_row g -> a <> g_base g + y * g_stride g + j.
Proof.
  induction gs as [|g gs IH]; intros p n a H F g' y j I En Hy Hj Ea; [destruct I|].
  cbn [locate] in H. destruct (Nat.eqb n (g_buf g) && _ && _ && _) eqn:E; [discriminate|].
  destruct I as [<-|I].
  - pose proof (Forall_inv F) as G. cbv beta in G.
    assert (D : a - g_base g = y * g_stride g + j) by lia. rewrite D in E.
    assert (D1 : (y * g_stride g + j) / g_stride g = y) by (rewrite Z.add_comm, Z.div_add, Z.div_small; lia).
    assert (D2 : (y * g_stride g + j) mod g_stride g = j) by (rewrite Z.add_comm, Z.mod_add, Z.mod_small; lia).
    rewrite D1, D2 in E.
    assert (T : Nat.eqb n (g_buf g) && (0 <=? y * g_stride g + j) && (y <? g_rows g) && (j <? g_row g) = true).
    { rewrite !andb_true_iff, Nat.eqb_eq, Z.leb_le, !Z.ltb_lt. nia. }
    congruence.
  - inversion F; subst. eapply IH; eauto.
Qed.

Lemma planes_rows im w h : 0 < w -> 0 < h -> valid_image im w h -> Forall (fun g => 0 < g_row g) (image_planes im w h).
Proof.
  intros Hw Hh (_ & _ & V). unfold image_planes, planes. 
  destruct (i_pf im) eqn:E; cbn [valid_size] in V; try (destruct V as (V & V')); 
  try (destruct (i_planes im =? 1)); repeat (apply Forall_cons; [cbn [g_row bytes_per_pixel]; try lia|]); try apply Forall_nil;
  pose proof (Z.div_mod w 2); lia.
Qed.

Lemma converted_unique A src dst w h sb db after : 0 < w -> 0 < h -> valid_image dst w h -> rows_apart dst w h ->
  converted A src dst w h sb db after -> after = converted_buffers A src dst w h sb db.
Proof.
  intros Hw Hh V R (L & S & O). unfold converted_buffers.
  assert (LL : length after = length db) by (rewrite <- (map_length (@length Z) after), L; apply map_length).
  assert (Fs : Forall (fun g => 0 < g_row g <= g_stride g) (image_planes dst w h)).
  { pose proof (planes_rows dst w h Hw Hh V) as P. unfold rows_apart in R. rewrite Forall_forall in *.
    intros g I. split; [apply P|apply R]; assumption. }
  apply (nth_ext _ _ [] []); [rewrite new_buffers_length; exact LL|].
  intros n Hn. rewrite new_buffers_nth by lia. cbn [Nat.add].
  assert (Ln : length (nth n after []) = length (nth n db [])).
  { rewrite <- (map_nth (@length Z) after [] n), L. apply map_nth. }
  apply (nth_ext _ _ 0 0); [rewrite new_bytes_length; exact Ln|].
  intros i Hi. rewrite new_bytes_nth by lia. rewrite Z.add_0_l.
  destruct (locate (image_planes dst w h) 0 n (Z.of_nat i)) as [[[p y] j]|] eqn:E.
  - destruct (locate_some _ _ _ _ _ _ _ E) as (g & N & _ & B & Hy & Hj & H0 & Ey & Ej).
    rewrite Nat.sub_0_r in N. rewrite Forall_forall in Fs. pose proof (Fs g (nth_error_In _ _ N)) as Fg.
    assert (Y : 0 <= y) by (rewrite Ey; apply Z.div_pos; lia).
    assert (J : 0 <= j) by (rewrite Ej; apply Z.mod_pos_bound; lia).
    rewrite <- (S p g N y j (conj Y Hy) (conj J Hj)). unfold sample. rewrite <- B. f_equal.
    assert (D : g_base g + y * g_stride g + j = Z.of_nat i).
    { pose proof (Z.div_mod (Z.of_nat i - g_base g) (g_stride g) ltac:(lia)) as Q. rewrite <- Ey, <- Ej in Q. lia. }
    rewrite D, Nat2Z.id. reflexivity.
  - assert (NI : ~ in_image dst w h n (Z.of_nat i)).
    { intros (g & y & j & I & B & Hy & Hj & Ea). exact (locate_none _ _ _ _ E Fs g y j I B Hy Hj Ea). }
    specialize (O n (Z.of_nat i)). unfold buf_len in O. rewrite !Nat2Z.id in O. apply O; [lia|exact NI].
Qed.

(** ** Calls *)
Lemma room_read set src dst w h sb : room set src dst w h sb -> read_in set src dst w h sb.
Proof.
  unfold room, read_in, image_in. intros R. eapply Forall_impl; [|exact R]. intros g. unfold plane_in.
  pose proof (SetProofs.last_read_bound set (i_pf src) (i_pf dst) w). lia.
Qed.
Lemma reference_same set T w h src dst sb db : is_target T -> well_formed (usz T) w h src dst sb db ->
  rows_apart src w h -> rows_apart dst w h ->
  extent_below (usz T / 2 - 1) src w h -> extent_below (usz T / 2 - 1) dst w h ->
  let A := set_cols set (i_pf src) (i_pf dst) w in
  let '(a, after) := reference A w h src dst sb db in
  (a = Done -> 0 < w -> 0 < h -> image_in 0 dst w h db /\ read_in set src dst w h sb) ->
  convert (converters set) T w h src dst sb db = Ok (outcome_of a) (Mem sb after).
Proof.
  intros HT W R1 R2 X1 X2 A. unfold reference. 
  pose proof W as (Hw & Hh & Hs & Hd & _).
  destruct (any_errors set T src dst w h (option_map arr_of (i_strides src)) (arr_of (rust_slices Src sb))
              (option_map arr_of (i_strides dst)) (arr_of (rust_slices Dst db)) (Mem sb db) Hs Hd) as (E1 & E2 & _).
  fold (convert (converters set) T w h src dst sb db) in E1, E2.
  assert (Q : forall e, (exists m', convert (converters set) T w h src dst sb db = Ok (Err e) m') ->
              convert (converters set) T w h src dst sb db = Ok (Err e) (Mem sb db)).
  { intros e (m' & E). rewrite E. f_equal. exact (any_quiet set T src dst w h _ _ _ _ _ e m' Hs Hd E). }
  destruct (image_ok src w h && image_ok dst w h) eqn:V; cbn [negb].
  2: { intros _. apply Q, E1. intros (V1 & V2). apply image_ok_valid in V1, V2. rewrite V1, V2 in V. discriminate. }
  apply andb_true_iff in V. destruct V as (V1 & V2). apply image_ok_valid in V1, V2.
  destruct (supported (i_pf src) (i_pf dst)) eqn:S; cbn [negb].
  2: { intros _. apply Q, E2. auto. }
  destruct ((w =? 0) || (h =? 0)) eqn:Z0.
  { intros _. apply (any_empty set T src dst w h); auto. rewrite orb_true_iff, !Z.eqb_eq in Z0. exact Z0. }
  rewrite orb_false_iff, !Z.eqb_neq in Z0.
  destruct (exact_cases set T HT w h src dst sb db W ltac:(lia) ltac:(lia) R1 R2 X1 X2 V1 V2 S) as (C1 & C2 & _).
  set (packed := is_rgb (i_pf src) && is_rgb (i_pf dst)) in *.
  assert (BT : enough src sb && enough dst db && buffers_large packed src w h sb && buffers_large packed dst w h db = true <->
               buffers_taken src dst w h sb db).
  { unfold buffers_taken. cbv zeta. fold packed. rewrite !andb_true_iff, !enough_planes_ok, !buffers_large_taken. tauto. }
  destruct (enough src sb && enough dst db && buffers_large packed src w h sb && buffers_large packed dst w h db) eqn:B; cbn [negb].
  - intros H. destruct (H eq_refl ltac:(lia) ltac:(lia)) as (I & M).
    destruct (C2 (proj1 BT eq_refl) I M) as (after & E & K). cbv zeta in E. rewrite E. cbn [outcome_of]. f_equal. f_equal.
    apply converted_unique; auto; lia.
  - intros _. apply C1. intros K. apply BT in K. discriminate.
Qed.

Lemma below_buffers im w h bufs L : 0 <= L -> buffers_ok L bufs -> image_in 0 im w h bufs -> extent_below L im w h.
Proof.
  intros L0 B I. unfold image_in, extent_below in *. eapply Forall_impl; [|exact I]. intros g H. cbv beta in *.
  unfold plane_in, buf_len in H. assert (Z.of_nat (length (nth (g_buf g) bufs [])) <= L); [|lia].
  destruct (Nat.lt_ge_cases (g_buf g) (length bufs)) as [Q|Q].
  - unfold buffers_ok in B. rewrite Forall_forall in B. exact (proj1 (B _ (nth_In _ _ Q))).
  - rewrite nth_overflow by exact Q. cbn. lia.
Qed.

Lemma reference_documented set T w h src dst sb db error : is_target T ->
  documented_call (usz T) w h src dst sb db -> room set src dst w h sb ->
  let after := converted_buffers (set_cols set (i_pf src) (i_pf dst) w) src dst w h sb db in
  convert (converters set) T w h src dst sb db = Ok Success (Mem sb after) /\
  c_convert (converters set) T w h src dst sb db error = Ok (C_Ok, error) (Mem sb after).
Proof.
  intros HT D R. cbv zeta. destruct (c_same_success set T w h src dst sb db error HT D R) as (m & E & F).
  destruct D as (W & W0 & H0 & Vs & Vd & S & Ps & Pd & Fs & Fd).
  destruct (image_fits_in src w h sb W0 H0 (proj2 (proj2 Vs)) Fs) as [Is Rs].
  destruct (image_fits_in dst w h db W0 H0 (proj2 (proj2 Vd)) Fd) as [Id Rd].
  pose proof W as (_ & _ & _ & _ & _ & _ & Bs & Bd).
  assert (L0 : 0 <= usz T / 2 - 1) by (destruct HT as [(-> & _)|(-> & _)]; vm_compute; discriminate).
  pose proof (reference_same set T w h src dst sb db HT W Rs Rd (below_buffers _ _ _ _ _ L0 Bs Is) (below_buffers _ _ _ _ _ L0 Bd Id)) as Q.
  cbv zeta in Q. unfold reference in Q.
  rewrite (proj2 (image_ok_valid src w h) Vs), (proj2 (image_ok_valid dst w h) Vd), S in Q. cbn [andb negb] in Q.
  replace ((w =? 0) || (h =? 0)) with false in Q by (symmetry; rewrite orb_false_iff, !Z.eqb_neq; lia).
  destruct (negb _) in Q.
  - specialize (Q ltac:(discriminate)). rewrite E in Q. discriminate Q.
  - specialize (Q (fun _ _ _ => conj Id (room_read _ _ _ _ _ _ R))). cbn [outcome_of] in Q. rewrite E in Q.
    assert (M : m = Mem sb (converted_buffers (set_cols set (i_pf src) (i_pf dst) w) src dst w h sb db)).
    { apply (f_equal (fun r => match r with Ok _ m => m | Fault _ => m end)) in Q. exact Q. }
    subst m. auto.
Qed.

(** ** The size of the machine words does not matter *)
Lemma buffers_ok_more a b bufs : a <= b -> buffers_ok a bufs -> buffers_ok b bufs.
Proof. intros L H. unfold buffers_ok in *. eapply Forall_impl; [|exact H]. cbv beta. intros l [? ?]. split; [lia|assumption]. Qed.
Lemma well_formed_more a b w h src dst sb db : a <= b -> well_formed a w h src dst sb db -> well_formed b w h src dst sb db.
Proof.
  intros L (H1 & H2 & H3 & H4 & H5 & H6 & H7 & H8). pose proof (Z.div_le_mono a b 2 ltac:(lia) L).
  repeat (split; [assumption|]). split; [|split; [|split]].
  - unfold strides_below in *. destruct (i_strides src); auto. eapply Forall_impl; [|exact H5]. cbv beta. lia.
  - unfold strides_below in *. destruct (i_strides dst); auto. eapply Forall_impl; [|exact H6]. cbv beta. lia.
  - eapply buffers_ok_more; [|exact H7]. lia.
  - eapply buffers_ok_more; [|exact H8]. lia.
Qed.
Lemma same_words set T T' w h src dst sb db : is_target T -> is_target T' ->
  well_formed (2 ^ 32) w h src dst sb db -> rows_apart src w h -> rows_apart dst w h ->
  image_in 0 dst w h db -> room set src dst w h sb ->
  convert (converters set) T w h src dst sb db = convert (converters set) T' w h src dst sb db.
Proof.
  intros HT HT' W Rs Rd Id R.
  assert (Is : image_in 0 src w h sb).
  { pose proof (SetProofs.over_read_nonneg set (i_pf src) (i_pf dst) w). unfold room, image_in in *. eapply Forall_impl; [|exact R].
    intros g. unfold plane_in. lia. }
  assert (K : forall T, is_target T -> convert (converters set) T w h src dst sb db =
    let '(a, after) := reference (set_cols set (i_pf src) (i_pf dst) w) w h src dst sb db in Ok (outcome_of a) (Mem sb after)).
  { clear T T' HT HT'. intros T HT.
    assert (L : 2 ^ 32 <= usz T) by (destruct HT as [(-> & _)|(-> & _)]; vm_compute; discriminate).
    assert (L0 : 0 <= usz T / 2 - 1) by (destruct HT as [(-> & _)|(-> & _)]; vm_compute; discriminate).
    pose proof (well_formed_more _ (usz T) _ _ _ _ _ _ L W) as W'. pose proof W' as (_ & _ & _ & _ & _ & _ & Bs & Bd).
    pose proof (reference_same set T w h src dst sb db HT W' Rs Rd (below_buffers _ _ _ _ _ L0 Bs Is) (below_buffers _ _ _ _ _ L0 Bd Id)) as Q.
    cbv zeta in Q. destruct (reference _ _ _ _ _ _ _) as [a after]. apply Q. intros _ _ _. split; [assumption|apply room_read; assumption]. }
  rewrite (K T HT), (K T' HT'). reflexivity.
Qed.
