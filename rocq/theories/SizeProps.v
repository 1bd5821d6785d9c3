(** The sizes of get_buffers_size are enough for convert_image. *)
From Coq Require Import ZArith List Bool Lia ZifyBool ZifyNat.
Import ListNotations.
From Verif Require Import Base Exec Fmt Dispatch Common Wrappers CpuInfo Lib Sets Spec SetSpec ApiSpec Api WrapperFacts LibFacts SizeFacts
  ApiProofs SetProofs ConvertProofs CallFacts ResultFacts PropFacts.
Open Scope Z_scope.
Ltac Zify.zify_post_hook ::= Z.div_mod_to_equations.

(** Buffers hold at least the given sizes. *)
Definition holds (im : image) (bufs : list (list Z)) (sizes : list Z) : Prop :=
  i_planes im <= Z.of_nat (length bufs) /\
  forall n, Z.of_nat n < i_planes im -> nth n sizes 0 <= buf_len bufs n.

Lemma stride_one pf w l i : (length l <= i)%nat -> stride_at pf w l i = nth i (auto_rows pf w) 0.
Proof. intros. unfold stride_at. rewrite nth_overflow by auto. reflexivity. Qed.

Lemma sizes_fit im w h bufs out : 0 <= w -> 0 <= h ->
  valid_num_planes (i_pf im) (i_planes im) -> valid_size (i_pf im) w h -> rows_apart im w h -> plain_strides im w ->
  holds im bufs (code_sizes im w h ++ out) -> image_fits im w h bufs.
Proof.
  intros Hw Hh Vn Vz HR [HP HP2] [_ HB]. pose proof (valid_planes_small _ _ Vn) as Hp.
  assert (NN : match i_strides im with None => True | Some l => True end) by (destruct (i_strides im); auto).
  assert (HB' : forall n, Z.of_nat n < i_planes im -> nth n (code_sizes im w h) 0 <= buf_len bufs n).
  { intros n Hn. rewrite <- (HB n Hn). rewrite app_nth1 by (rewrite code_sizes_length; lia). lia. }
  clear HB NN. unfold image_fits. unfold rows_apart in HR.
  rewrite Forall_forall in *. intros g Hg. split; [auto|]. specialize (HR g Hg).
  unfold code_sizes in HB'.
  destruct (i_planes im =? 1) eqn:E1.
  - specialize (HB' 0%nat ltac:(lia)). cbn [nth] in HB'. unfold plane_size in HB'.
    assert (HL : strides_list (i_strides im) = DEFAULT_STRIDES \/ exists s, i_strides im = Some [s]).
    { destruct (i_strides im) as [l|]; [right|left; reflexivity]. destruct l as [|s [|? ?]]; cbn [length] in HP; try lia. eauto. }
    assert (S0 : forall i, (1 <= i)%nat -> stride_at (i_pf im) w (strides_list (i_strides im)) i = nth i (auto_rows (i_pf im) w) 0).
    { intros i Hi. destruct HL as [->|[s ->]].
      - destruct i as [|[|[|[|i]]]]; try lia; try reflexivity. unfold stride_at. rewrite nth_overflow by (cbn; lia). reflexivity.
      - apply stride_one. cbn [strides_list length]. lia. }
    rewrite (S0 1%nat), (S0 2%nat), (S0 3%nat) in HB' by lia.
    unfold image_planes, planes in Hg.
    destruct (i_pf im) eqn:Ep; cbn [valid_num_planes] in Vn; try lia;
      cbn [auto_rows auto_heights nth bytes_per_pixel] in HB'; try rewrite E1 in Hg;
      cbn [In] in Hg; decompose [or] Hg; try contradiction; subst g; cbn [g_buf g_base g_stride g_rows g_row] in *.
    all: try (cbn [bytes_per_pixel] in *; unfold stride_at in HB'; unfold eff_stride in *;
      destruct HL as [HL|[s HL]];
      [destruct (i_strides im) as [l|]; cbn [strides_list] in HL;
       [subst l; cbn [DEFAULT_STRIDES length] in HP; lia|
        cbn [strides_list nth DEFAULT_STRIDES auto_rows] in HB'; unfold STRIDE_AUTO in HB'; change (0 =? 0) with true in HB'; cbv iota in HB'; lia]
      |rewrite HL in *; cbn [strides_list nth auto_rows] in *; destruct (s =? 0); [lia|];
       assert (0 <= w * h) by (apply Z.mul_nonneg_nonneg; lia); lia]).
  - assert (HB2 : forall n, Z.of_nat n < i_planes im -> plane_size im w h n <= buf_len bufs n).
    { intros n Hn. specialize (HB' n Hn). rewrite nth_firstn_lt in HB' by lia.
      destruct n as [|[|[|n]]]; try lia; exact HB'. }
    pose proof (HB2 0%nat) as B0. pose proof (HB2 1%nat) as B1. pose proof (HB2 2%nat) as B2. clear HB' HB2.
    unfold image_planes, planes in Hg. unfold plane_size in *.
    destruct (i_pf im) eqn:Ep; cbn [valid_num_planes] in Vn; try lia;
      cbn [auto_heights nth] in B0, B1, B2; try rewrite E1 in Hg;
      [rewrite <- (eff_stride_at I444 w _ 0 w) in B0 by reflexivity;
       rewrite <- (eff_stride_at I444 w _ 1 w) in B1 by reflexivity;
       rewrite <- (eff_stride_at I444 w _ 2 w) in B2 by reflexivity
      |rewrite <- (eff_stride_at I422 w _ 0 w) in B0 by reflexivity;
       rewrite <- (eff_stride_at I422 w _ 1 (w / 2)) in B1 by reflexivity;
       rewrite <- (eff_stride_at I422 w _ 2 (w / 2)) in B2 by reflexivity
      |rewrite <- (eff_stride_at I420 w _ 0 w) in B0 by reflexivity;
       rewrite <- (eff_stride_at I420 w _ 1 (w / 2)) in B1 by reflexivity;
       rewrite <- (eff_stride_at I420 w _ 2 (w / 2)) in B2 by reflexivity
      |rewrite <- (eff_stride_at Nv12 w _ 0 w) in B0 by reflexivity;
       rewrite <- (eff_stride_at Nv12 w _ 1 w) in B1 by reflexivity];
      cbn [In] in Hg; decompose [or] Hg; try contradiction; subst g; cbn [g_buf g_base g_stride g_rows g_row] in *; lia.
Qed.

(** A successful size query. *)
Definition sizes_of (T : target) (im : image) (w h : Z) (sizes : list Z) : Prop :=
  exists out m m', get_buffers_size w h (format_of im) (i_strides im) out (Target (usz T) true (big T)) m = Ok (Success, sizes) m'.

Lemma advertised_accepted set T w h src dst sb db ssizes dsizes : is_target T ->
  well_formed (usz T) w h src dst sb db -> 0 < w -> 0 < h ->
  valid_image src w h -> valid_image dst w h -> supported (i_pf src) (i_pf dst) = true ->
  rows_apart src w h -> rows_apart dst w h -> plain_strides src w -> plain_strides dst w ->
  sizes_of T src w h ssizes -> sizes_of T dst w h dsizes ->
  holds src sb ssizes -> holds dst db dsizes ->
  (exists m', convert (converters set) T w h src dst sb db = Ok Success m') \/
  (convert (converters set) T w h src dst sb db = Fault OOB_read /\ ~ room set src dst w h sb).
Proof.
  intros HT HW W0 H0 Vs Vd S Rs Rd Ps Pd (o1 & m1 & m1' & E1) (o2 & m2 & m2' & E2) Hs Hd.
  destruct (format_planes_u32 _ _ _ _ _ _ _ HW) as [Us Ud].
  assert (HT' : is_target (Target (usz T) true (big T))) by exact HT.
  destruct HW as (Hw & Hh & HW'). assert (HW : well_formed (usz T) w h src dst sb db) by (unfold well_formed; tauto). clear HW'.
  apply get_buffers_size_checked in E1; auto. destruct E1 as (_ & _ & R1 & _ & ->).
  apply get_buffers_size_checked in E2; auto. destruct E2 as (_ & _ & R2 & _ & ->).
  unfold enough_room in R1, R2. rewrite andb_true_iff in R1, R2.
  assert (Fs : image_fits src w h sb) by (eapply sizes_fit; eauto; try lia; apply Vs).
  assert (Fd : image_fits dst w h db) by (eapply sizes_fit; eauto; try lia; apply Vd).
  destruct (any_documented set T w h src dst sb db HT) as [(a & E & _)|H].
  - unfold documented_call. repeat (split; [assumption|]).
    assert (Es : enough_planes src sb).
    { split; [apply Hs|]. destruct (i_strides src) as [l|]; auto. cbn [strides_list] in R1. unfold zlen in R1. lia. }
    assert (Ed : enough_planes dst db).
    { split; [apply Hd|]. destruct (i_strides dst) as [l|]; auto. cbn [strides_list] in R2. unfold zlen in R2. lia. }
    auto.
  - eauto.
  - auto.
Qed.

(** Without strides and with dimensions below 2^31, a 64-bit size never overflows. *)
Lemma no_overflow_64 w h im : 0 <= w < 2 ^ 31 -> 0 <= h < 2 ^ 31 -> i_strides im = None ->
  Forall (fun s => s < 2 ^ 64) (code_sizes im w h).
Proof.
  intros Hw Hh E.
  assert (P : forall i, (i < 4)%nat -> plane_size im w h i < 2 ^ 62).
  { intros i Hi. unfold plane_size, stride_at. rewrite E. cbn [strides_list].
    assert (nth i DEFAULT_STRIDES 0 = 0) as -> by (destruct i as [|[|[|[|i]]]]; reflexivity || lia).
    change (0 =? 0) with true. cbv iota.
    pose proof (auto_row_bound (i_pf im) w i ltac:(lia) Hi).
    pose proof (auto_height_bound (i_pf im) h i ltac:(lia) Hi).
    set (a := nth i (auto_rows (i_pf im) w) 0) in *. set (b := nth i (auto_heights (i_pf im) h) 0) in *. clearbody a b.
    assert (a * b <= (2 ^ 31 - 1) * (2 ^ 31 - 1)) by (apply Z.mul_le_mono_nonneg; lia). lia. }
  unfold code_sizes. pose proof (P 0%nat ltac:(lia)). pose proof (P 1%nat ltac:(lia)).
  pose proof (P 2%nat ltac:(lia)). pose proof (P 3%nat ltac:(lia)).
  destruct (i_planes im =? 1).
  - apply Forall_cons; [lia|apply Forall_nil].
  - destruct (Z.to_nat (i_planes im)) as [|[|[|[|n]]]]; cbn [firstn];
      repeat (apply Forall_cons; [lia|]); try apply Forall_nil. destruct n; apply Forall_nil.
Qed.

(** Errors do not depend on the target when row sizes fit. *)
Lemma any_same_errors set T T' w h src dst sb db e : is_target T -> is_target T' ->
  well_formed (usz T) w h src dst sb db -> well_formed (usz T') w h src dst sb db ->
  sizes_ok T src dst w h -> sizes_ok T' src dst w h ->
  convert (converters set) T w h src dst sb db = Ok (Err e) (Mem sb db) ->
  convert (converters set) T' w h src dst sb db = Ok (Err e) (Mem sb db).
Proof.
  intros HT HT' HW HW' HS HS' E.
  destruct (format_planes_u32 _ _ _ _ _ _ _ HW) as [Us Ud].
  destruct HW as (Hw & Hh & _ & _ & S1 & S2 & B1 & B2). destruct HW' as (_ & _ & _ & _ & S1' & S2' & B1' & B2').
  pose proof (convert_rust_cases T HT (set_cols set) (set_slack set) (converters set) (set_ok set T) w h Hw Hh src dst sb db B2 S1 S2 B1 Us Ud HS) as C.
  pose proof (convert_rust_cases T' HT' (set_cols set) (set_slack set) (converters set) (set_ok set T') w h Hw Hh src dst sb db B2' S1' S2' B1' Us Ud HS') as C'.
  cbv zeta in C, C'.
  destruct C as [C|[C|[C|[C|[C|C]]]]]; destruct C' as [C'|[C'|[C'|[C'|[C'|C']]]]];
    try (exfalso; intuition (congruence || lia));
    repeat match goal with H : _ /\ _ |- _ => destruct H end; try congruence.
Qed.

Lemma sizes_ok_small T src dst w h : is_target T ->
  (forall im, im = src \/ im = dst -> bytes_per_pixel (i_pf im) * w < 2 ^ 32 /\
     (i_pf im = Nv12 -> i_planes im = 1 -> eff_stride (i_strides im) 0 w * h < 2 ^ 32)) -> sizes_ok T src dst w h.
Proof.
  intros HT H. destruct (H src (or_introl eq_refl)) as [A B]. destruct (H dst (or_intror eq_refl)) as [C D].
  unfold sizes_ok, no_overflow. destruct HT as [[E _]|[E _]]; rewrite E; repeat split; try lia; intros.
Qed.

Lemma well_formed_32 w h src dst sb db : well_formed (2 ^ 32) w h src dst sb db -> well_formed (2 ^ 64) w h src dst sb db.
Proof.
  intros (A & B & C & D & E & F & G & H). unfold well_formed.
  assert (S : forall im, strides_below (2 ^ 32) im -> strides_below (2 ^ 64) im).
  { intros im. unfold strides_below. destruct (i_strides im); auto. apply Forall_impl. intros; lia. }
  assert (K : forall b, buffers_ok (2 ^ 32 / 2 - 1) b -> buffers_ok (2 ^ 64 / 2 - 1) b).
  { intros b. unfold buffers_ok. apply Forall_impl. intros x [P Q]. split; auto.
    change (2 ^ 32 / 2 - 1) with 2147483647 in P. change (2 ^ 64 / 2 - 1) with 9223372036854775807. lia. }
  repeat (split; auto).
Qed.

Lemma errors_32_64 set T32 T64 w h src dst sb db e : is_target32 T32 -> is_target64 T64 ->
  well_formed (2 ^ 32) w h src dst sb db ->
  (forall im, im = src \/ im = dst -> bytes_per_pixel (i_pf im) * w < 2 ^ 32 /\
     (i_pf im = Nv12 -> i_planes im = 1 -> eff_stride (i_strides im) 0 w * h < 2 ^ 32)) ->
  (convert (converters set) T32 w h src dst sb db = Ok (Err e) (Mem sb db) <->
   convert (converters set) T64 w h src dst sb db = Ok (Err e) (Mem sb db)).
Proof.
  intros E32 E64 HW HS. assert (is_target T32) by (right; auto). assert (is_target T64) by (left; auto).
  pose proof (well_formed_32 _ _ _ _ _ _ HW).
  assert (well_formed (usz T32) w h src dst sb db) by (rewrite (proj1 E32); auto).
  assert (well_formed (usz T64) w h src dst sb db) by (rewrite (proj1 E64); auto).
  split; intros HE; [eapply (any_same_errors set T32 T64)|eapply (any_same_errors set T64 T32)]; eauto using sizes_ok_small.
Qed.

(** C12 *)
Lemma size_writes T w h im out m : is_target T ->
  0 <= w < 2 ^ 32 -> 0 <= h < 2 ^ 32 -> 0 <= i_planes im < 2 ^ 32 ->
  (forall e out' m', get_buffers_size w h (format_of im) (i_strides im) out T m = Ok (Err e, out') m' -> out' = out) /\
  (forall out' m', get_buffers_size w h (format_of im) (i_strides im) out T m = Ok (Success, out') m' ->
     i_planes im <= Z.of_nat (length out) /\ length out' = length out /\
     forall k, i_planes im <= Z.of_nat k -> nth k out' 0 = nth k out 0).
Proof.
  intros HT Hw Hh Hn. destruct (get_buffers_size_shape T w h im out m HT Hw Hh Hn) as [(e & E)|[(l & L & Lo & E)|E]];
    cbv zeta in E; rewrite E; split; intros; try congruence.
  inversion H; subst. unfold zlen in *. split; [lia|]. split.
  - rewrite app_length, skipn_length. lia.
  - intros k Hk. rewrite app_nth2 by lia. rewrite L.
    rewrite <- (firstn_skipn (Z.to_nat (i_planes im)) out) at 2. rewrite app_nth2 by (rewrite firstn_length; lia).
    rewrite firstn_length. f_equal. lia.
Qed.

(** C08 *)
Lemma size_invalid T w h im out m : is_target T ->
  0 <= w < 2 ^ 32 -> 0 <= h < 2 ^ 32 -> 0 <= i_planes im < 2 ^ 32 ->
  (get_buffers_size w h (format_of im) (i_strides im) out T m = Ok (Err InvalidValue, out) m <->
   ~ (valid_num_planes (i_pf im) (i_planes im) /\ valid_size (i_pf im) w h)).
Proof.
  intros HT Hw Hh Hn. destruct (get_buffers_size_cases T w h im out m HT Hw Hh Hn) as [[N E]|[(V & R & E)|(V & R & E)]];
    cbv zeta in E.
  - tauto.
  - rewrite E. split; [discriminate|tauto].
  - split; [|tauto]. intros H. exfalso.
    destruct (get_buffers_size_shape T w h im out m HT Hw Hh Hn) as [(e & E')|[(l & _ & _ & E')|E']]; cbv zeta in E'; try congruence.
    rewrite H in E. destruct (i_planes im =? 1) eqn:E1.
    + unfold enough_room, zlen in R. rewrite andb_true_iff in R.
      destruct (sizes_one_shape (plane_size im w h) out T m ltac:(lia)) as [[s E2]|E2]; congruence.
    + (unfold sizes_many, bind, ret in E; cbn [run] in E). destruct (fill_sizes _ _ _ _ _ _ _); congruence.
Qed.

(** C09, C10 *)
Lemma size_documented T w h im out m : is_target T -> 
  0 <= w < 2 ^ 32 -> 0 <= h < 2 ^ 32 -> strides_below (usz T) im ->
  valid_num_planes (i_pf im) (i_planes im) -> valid_size (i_pf im) w h ->
  i_strides im = None \/ 1 < i_planes im ->
  i_planes im <= Z.of_nat (length out) ->
  match i_strides im with None => True | Some l => i_planes im <= Z.of_nat (length l) end ->
  Forall (fun s => s < usz T) (documented_sizes im w h) ->
  get_buffers_size w h (format_of im) (i_strides im) out T m =
  Ok (Success, documented_sizes im w h ++ skipn (Z.to_nat (i_planes im)) out) m.
Proof.
  intros HT Hw Hh HS V1 V2 HC Lo Ls HF. rewrite <- (code_documented im w h) in * by auto.
  apply get_buffers_size_exact; auto.
  - apply (strides_nonneg _ _ HS).
  - unfold enough_room, zlen. pose proof (valid_planes_small _ _ V1).
    destruct (i_strides im); cbn [strides_list]; [lia|]. change (length DEFAULT_STRIDES) with 4%nat. lia.
Qed.

Lemma size_default T w h pf cs n out m : is_target T -> 
  0 <= w < 2 ^ 32 -> 0 <= h < 2 ^ 32 -> 
  valid_num_planes pf n -> valid_size pf w h -> n <= Z.of_nat (length out) ->
  let im := Image pf cs n None in
  Forall (fun s => s < usz T) (documented_sizes im w h) ->
  get_buffers_size w h (format_of im) None out T m =
  Ok (Success, documented_sizes im w h ++ skipn (Z.to_nat n) out) m.
Proof. intros. apply (size_documented T w h im); cbn; auto. Qed.

Lemma size_default_64 T w h pf cs n out m : is_target64 T ->
  0 <= w < 2 ^ 31 -> 0 <= h < 2 ^ 31 ->
  valid_num_planes pf n -> valid_size pf w h -> n <= Z.of_nat (length out) ->
  get_buffers_size w h (format_of (Image pf cs n None)) None out T m =
  Ok (Success, documented_sizes (Image pf cs n None) w h ++ skipn (Z.to_nat n) out) m.
Proof.
  intros U Hw Hh V Vz Ho. apply size_default; auto; try lia; [left; exact U|].
  rewrite (proj1 U). rewrite <- code_documented by (cbn; auto). apply no_overflow_64; auto.
Qed.

Lemma documented_default pf cs n w h : valid_num_planes pf n -> valid_size pf w h ->
  documented_sizes (Image pf cs n None) w h =
  match pf with
  | Argb | Bgra | Rgba => [4 * (w * h)]
  | Bgr | Rgb => [3 * (w * h)]
  | I444 => [w * h; w * h; w * h]
  | I422 => [w * h; w * h / 2; w * h / 2]
  | I420 => [w * h; w * h / 4; w * h / 4]
  | Nv12 => if n =? 1 then [3 * (w * h) / 2] else [w * h; w * h / 2]
  end.
Proof.
  intros V Vz. destruct pf; cbn [valid_num_planes valid_size] in *; subst;
    [..|destruct V; subst]; unfold documented_sizes, image_planes, planes; cbn [i_planes i_pf i_strides];
    try change (1 =? 1) with true; try change (2 =? 1) with false; cbv iota;
    match goal with |- context [Z.to_nat ?n] => let v := eval vm_compute in (Z.to_nat n) in change (Z.to_nat n) with v end;
    cbn [seq map filter Nat.eqb g_buf g_stride g_rows fold_right eff_stride bytes_per_pixel];
    rewrite ?Z.add_0_r; rewrite ?Z.mul_assoc; try reflexivity.
  - assert (E : w / 2 * h = w * h / 2); [|rewrite E; reflexivity].
    rewrite (Z.div_mod w 2) at 2 by lia. rewrite Vz, Z.add_0_r, <- Z.mul_assoc, (Z.mul_comm 2), Z.div_mul; lia.
  - assert (E : w / 2 * (h / 2) = w * h / 4); [|rewrite E; reflexivity].
    rewrite (Z.div_mod w 2) at 2 by lia. rewrite (Z.div_mod h 2) at 2 by lia. destruct Vz as [-> ->]. rewrite !Z.add_0_r.
    replace (2 * (w / 2) * (2 * (h / 2))) with (w / 2 * (h / 2) * 4) by ring. rewrite Z.div_mul; lia.
  - f_equal. destruct Vz as [_ Vz].
    rewrite (Z.div_mod h 2) at 1 3 by lia. rewrite Vz, Z.add_0_r.
    replace (3 * w * (2 * (h / 2))) with (3 * w * (h / 2) * 2) by ring. rewrite Z.div_mul by lia. ring.
  - assert (E : w * (h / 2) = w * h / 2); [|rewrite E; reflexivity].
    rewrite (Z.div_mod h 2) at 2 by lia. destruct Vz as [_ ->]. rewrite Z.add_0_r.
    replace (w * (2 * (h / 2))) with (w * (h / 2) * 2) by ring. rewrite Z.div_mul; lia.
Qed.

Lemma size_closed T w h pf cs n out m : is_target64 T ->
  0 <= w < 2 ^ 31 -> 0 <= h < 2 ^ 31 ->
  valid_num_planes pf n -> valid_size pf w h -> n <= Z.of_nat (length out) ->
  get_buffers_size w h (format_of (Image pf cs n None)) None out T m =
  Ok (Success,
      match pf with
      | Argb | Bgra | Rgba => [4 * (w * h)]
      | Bgr | Rgb => [3 * (w * h)]
      | I444 => [w * h; w * h; w * h]
      | I422 => [w * h; w * h / 2; w * h / 2]
      | I420 => [w * h; w * h / 4; w * h / 4]
      | Nv12 => if n =? 1 then [3 * (w * h) / 2] else [w * h; w * h / 2]
      end ++ skipn (Z.to_nat n) out) m.
Proof. intros. rewrite <- (documented_default pf cs) by assumption. apply size_default_64; assumption. Qed.
