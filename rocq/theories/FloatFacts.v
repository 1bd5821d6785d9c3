(** Doubles of the standard library's [SpecFloat] and the numbers they stand for: comparison is
    that of the numbers, and addition and multiplication are near the exact results. *)
From Coq Require Import ZArith List Bool Lia Floats.SpecFloat.
Import ListNotations.
Open Scope Z_scope.

(** The number a double stands for, in units of 2^-1074. *)
Definition val (x : spec_float) : Z :=
  match x with S754_finite s m e => cond_Zopp s (Z.pos m) * 2 ^ (e + 1074) | _ => 0 end.
(** Zeros and finite doubles in normal form. *)
Definition fin (x : spec_float) : Prop :=
  match x with
  | S754_zero _ => True
  | S754_finite _ m e => fexp 53 1024 (Z.pos (digits2_pos m) + e) = e
  | _ => False
  end.

(** ** Digits *)

Lemma digits_bounds p : 2 ^ (Z.pos (digits2_pos p) - 1) <= Z.pos p < 2 ^ Z.pos (digits2_pos p).
Proof.
  induction p as [p IH|p IH|]; cbn [digits2_pos]; try (cbv; split; congruence).
  all: rewrite Pos2Z.inj_succ; unfold Z.succ; rewrite Z.add_simpl_r.
  all: replace (Z.pos (digits2_pos p)) with (Z.pos (digits2_pos p) - 1 + 1) at 1 by lia.
  all: rewrite !Z.pow_add_r in * by lia; change (2 ^ 1) with 2; lia.
Qed.
Lemma digits_unique p n : 0 < n -> 2 ^ (n - 1) <= Z.pos p < 2 ^ n -> Z.pos (digits2_pos p) = n.
Proof.
  intros N [A B]. pose proof (digits_bounds p) as [C D]. set (d := Z.pos (digits2_pos p)) in *. assert (0 < d) by (unfold d; lia).
  assert (n - 1 < d) by (apply (Z.pow_lt_mono_r_iff 2); lia). assert (d - 1 < n) by (apply (Z.pow_lt_mono_r_iff 2); lia). lia.
Qed.

(** ** Shifts *)

Lemma shr_1_m r : 0 <= shr_m r -> shr_m (shr_1 r) = shr_m r / 2.
Proof.
  destruct r as [m b s]; cbn [shr_m]. intros H. unfold shr_1. destruct m as [|[p|p|]|p]; cbn [shr_m]; try reflexivity; try lia;
    Z.div_mod_to_equations; lia.
Qed.
Lemma iter_shr p : forall r, 0 <= shr_m r -> shr_m (iter_pos shr_1 p r) = shr_m r / 2 ^ Z.pos p.
Proof.
  assert (P : forall r n, 0 <= shr_m r -> 0 <= shr_m r / 2 ^ n \/ n < 0).
  { intros r n H. destruct (Z.lt_ge_cases n 0); [auto|left]. apply Z.div_pos; [exact H|]. apply Z.pow_pos_nonneg; lia. }
  induction p as [p IH|p IH|]; intros r H; cbn [iter_pos].
  - assert (H1 : 0 <= shr_m (shr_1 r)) by (rewrite shr_1_m by exact H; apply Z.div_pos; lia).
    assert (H2 : 0 <= shr_m (iter_pos shr_1 p (shr_1 r))) by (rewrite IH by exact H1; destruct (P (shr_1 r) (Z.pos p) H1); lia).
    rewrite IH, IH, shr_1_m by assumption.
    rewrite !Zdiv_Zdiv by (try apply Z.mul_nonneg_nonneg; try apply Z.pow_nonneg; lia). rewrite (Pos2Z.inj_xI p).
    replace (2 * Z.pos p + 1) with (1 + Z.pos p + Z.pos p) by lia. rewrite !Z.pow_add_r by lia.
    rewrite ?Z.mul_assoc. reflexivity.
  - assert (H2 : 0 <= shr_m (iter_pos shr_1 p r)) by (rewrite IH by exact H; destruct (P r (Z.pos p) H); lia).
    rewrite IH, IH by assumption. rewrite Zdiv_Zdiv by (apply Z.pow_nonneg; lia). rewrite (Pos2Z.inj_xO p).
    replace (2 * Z.pos p) with (Z.pos p + Z.pos p) by lia. rewrite !Z.pow_add_r by lia. reflexivity.
  - apply shr_1_m, H.
Qed.
Lemma shr_up m e n r e' : 0 <= m -> 0 <= n -> shr (shr_record_of_loc m loc_Exact) e n = (r, e') ->
  shr_m r = m / 2 ^ n /\ e' = e + n.
Proof.
  intros M N E. destruct n as [|p|p]; [| |lia]; unfold shr, shr_record_of_loc in E; apply pair_equal_spec in E as [<- <-].
  - cbn [shr_m]. rewrite Z.pow_0_r, Z.div_1_r. lia.
  - rewrite iter_shr by exact M. cbn [shr_m]. lia.
Qed.
Lemma shr_not m e n : n <= 0 -> shr (shr_record_of_loc m loc_Exact) e n = (Build_shr_record m false false, e).
Proof. intros N. destruct n as [|p|p]; [reflexivity|lia|reflexivity]. Qed.
Lemma rounded m l : round_nearest_even m l = m \/ round_nearest_even m l = m + 1.
Proof. destruct l as [|[| |]]; cbn [round_nearest_even]; auto. destruct (Z.even m); auto. Qed.

(** ** Rounding *)

Lemma fexp_max d : fexp 53 1024 d = Z.max (d - 53) (-1074).
Proof. reflexivity. Qed.

Lemma round_aux s m e : -1074 <= e -> 0 < m -> e <= fexp 53 1024 (Zdigits2 m + e) <= 900 ->
  let r := binary_round_aux 53 1024 s m e loc_Exact in
  fin r /\ Z.abs (val r - cond_Zopp s m * 2 ^ (e + 1074)) <= 2 ^ (fexp 53 1024 (Zdigits2 m + e) + 1074).
Proof.
  intros E0 M HE. destruct m as [|p|p]; try lia. cbn [Zdigits2] in *.
  pose proof (digits_bounds p) as D. set (d := Z.pos (digits2_pos p)) in *. assert (D0 : 0 < d) by (unfold d; lia). clearbody d.
  unfold binary_round_aux, shr_fexp. cbn [Zdigits2].
  change (Z.pos (digits2_pos p)) with (Zdigits2 (Z.pos p)).
  assert (ED : Zdigits2 (Z.pos p) = d) by (cbn [Zdigits2]; apply digits_unique; [exact D0|exact D]).
  rewrite ED. set (e1 := fexp 53 1024 (d + e)) in *.
  assert (F1 : e1 = Z.max (d + e - 53) (-1074)) by reflexivity. clearbody e1.
  destruct (shr _ e (e1 - e)) as [r1 e1'] eqn:S1. apply shr_up in S1 as [R1 ->]; [|lia|lia].
  replace (e + (e1 - e)) with e1 by lia. rewrite R1.
  set (k := e1 - e) in *. assert (K0 : 0 <= k) by lia.
  pose proof (Z.pow_pos_nonneg 2 k ltac:(lia) K0) as PK.
  set (m1 := Z.pos p / 2 ^ k) in *. assert (M1 : 2 ^ k * m1 <= Z.pos p < 2 ^ k * m1 + 2 ^ k).
  { unfold m1. pose proof (Z.div_mod (Z.pos p) (2 ^ k) ltac:(lia)). pose proof (Z.mod_pos_bound (Z.pos p) (2 ^ k) PK). lia. }
  assert (M1p : 0 <= m1) by (apply Z.div_pos; lia). clearbody m1.
  assert (T1 : m1 < 2 ^ 53).
  { apply (Z.mul_lt_mono_pos_l (2 ^ k)); [exact PK|]. rewrite <- Z.pow_add_r by lia.
    apply Z.le_lt_trans with (Z.pos p); [lia|]. apply Z.lt_le_trans with (2 ^ d); [lia|]. apply Z.pow_le_mono_r; lia. }
  assert (T2 : -1074 < e1 -> 2 ^ 52 <= m1).
  { intros G. assert (k = d - 53) by lia. assert (2 ^ (d - 1) = 2 ^ k * 2 ^ 52).
    { rewrite <- Z.pow_add_r by lia. replace (k + 52) with (d - 1) by lia. reflexivity. }
    destruct (Z.lt_ge_cases m1 (2 ^ 52)) as [L|L]; [|lia]. exfalso.
    assert (2 ^ k * (m1 + 1) <= 2 ^ k * 2 ^ 52) by (apply Z.mul_le_mono_nonneg_l; lia). lia. }
  set (m2 := round_nearest_even m1 (loc_of_shr_record r1)) in *.
  assert (M2 : m2 = m1 \/ m2 = m1 + 1) by apply rounded. clearbody m2. clear R1 r1.
  assert (SC : 2 ^ (e1 + 1074) = 2 ^ k * 2 ^ (e + 1074)).
  { rewrite <- Z.pow_add_r by lia. replace (k + (e + 1074)) with (e1 + 1074) by lia. reflexivity. }
  pose proof (Z.pow_pos_nonneg 2 (e + 1074) ltac:(lia) ltac:(lia)) as PE. set (pe := 2 ^ (e + 1074)) in *. clearbody pe.
  assert (ERR : Z.abs (m2 * 2 ^ (e1 + 1074) - Z.pos p * pe) <= 2 ^ (e1 + 1074)).
  { rewrite SC. replace (m2 * (2 ^ k * pe) - Z.pos p * pe) with ((2 ^ k * m2 - Z.pos p) * pe) by ring.
    rewrite Z.abs_mul, (Z.abs_eq pe) by lia. apply Z.mul_le_mono_nonneg_r; [lia|]. apply Z.abs_le.
    destruct M2 as [-> | ->]; rewrite ?Z.mul_add_distr_l; lia. }
  assert (SG : forall v, Z.abs (v - Z.pos p * pe) = Z.abs (cond_Zopp s v - cond_Zopp s (Z.pos p) * pe)).
  { intros v. destruct s; cbn [cond_Zopp]; [|reflexivity]. rewrite <- Z.abs_opp. apply f_equal. ring. }
  assert (CM : forall a b, cond_Zopp s a * b = cond_Zopp s (a * b)) by (intros; destruct s; cbn [cond_Zopp]; ring).
  destruct (Z.eq_dec m2 0) as [Z0|N0].
  - rewrite Z0. assert (Q : shr (shr_record_of_loc 0 loc_Exact) e1 (fexp 53 1024 (Zdigits2 0 + e1) - e1) = (Build_shr_record 0 false false, e1)).
    { apply shr_not. rewrite fexp_max. cbn [Zdigits2]. lia. }
    rewrite Q. cbn [shr_m]. split; [exact I|]. cbn [val].
    rewrite Z0 in ERR. replace 0 with (cond_Zopp s 0) by (destruct s; reflexivity). rewrite <- SG. rewrite Z.mul_0_l in ERR. exact ERR.
  - destruct m2 as [|q|q]; try lia. destruct (Z.eq_dec (Z.pos q) (2 ^ 53)) as [TOP|LOW].
    + assert (DQ : Zdigits2 (Z.pos q) = 54) by (cbn [Zdigits2]; apply digits_unique; [lia|rewrite TOP; split; [reflexivity|apply Z.pow_lt_mono_r; lia]]).
      destruct (shr _ e1 _) as [r2 e2] eqn:S2. rewrite DQ, fexp_max in S2. replace (Z.max (54 + e1 - 53) (-1074) - e1) with 1 in S2 by lia.
      apply shr_up in S2 as [R2 ->]; [|lia|lia]. rewrite TOP in R2. change (2 ^ 53 / 2 ^ 1) with (Z.pos 4503599627370496) in R2.
      rewrite R2. replace (Zle_bool (e1 + 1) (1024 - 53)) with true by (symmetry; apply Zle_imp_le_bool; lia).
      split.
      * cbn [fin]. rewrite fexp_max. replace (Z.pos (digits2_pos 4503599627370496)) with 53 by reflexivity. lia.
      * cbn [val]. rewrite CM, <- SG. replace (Z.pos 4503599627370496 * 2 ^ (e1 + 1 + 1074)) with (Z.pos q * 2 ^ (e1 + 1074)); [exact ERR|].
        rewrite TOP. replace (e1 + 1 + 1074) with (1 + (e1 + 1074)) by lia. rewrite (Z.pow_add_r 2 1) by lia. rewrite Z.mul_assoc. reflexivity.
    + assert (Q53 : Z.pos q < 2 ^ 53) by lia.
      pose proof (digits_bounds q) as DB. cbn [Zdigits2]. set (dq := Z.pos (digits2_pos q)) in *. assert (0 < dq) by (unfold dq; lia).
      assert (DQ : dq <= 53).
      { assert (dq - 1 < 53) by (apply (Z.pow_lt_mono_r_iff 2); lia). lia. }
      assert (DQ' : -1074 < e1 -> dq = 53).
      { intros G. specialize (T2 G). assert (52 < dq) by (apply (Z.pow_lt_mono_r_iff 2); lia). lia. }
      rewrite shr_not by (rewrite fexp_max; lia). cbn [shr_m].
      replace (Zle_bool e1 (1024 - 53)) with true by (symmetry; apply Zle_imp_le_bool; lia).
      split; [cbn [fin]; fold dq; rewrite fexp_max; lia|]. cbn [val]. rewrite CM, <- SG. exact ERR.
Qed.

Lemma shl_down m e e' : e' <= e -> snd (shl_align m e e') = e' /\ Z.pos (fst (shl_align m e e')) = Z.pos m * 2 ^ (e - e').
Proof.
  intros L. unfold shl_align. destruct (e' - e) as [|d|d] eqn:ED; [|lia|]; cbn [fst snd].
  - assert (e = e') as -> by lia. rewrite Z.sub_diag, Z.pow_0_r. lia.
  - split; [reflexivity|]. rewrite shift_pos_correct. replace (e - e') with (Z.pos d) by lia. rewrite Z.mul_comm. reflexivity.
Qed.
Lemma shl_not m e e' : e <= e' -> shl_align m e e' = (m, e).
Proof. intros L. unfold shl_align. destruct (e' - e) as [|d|d] eqn:ED; [reflexivity|reflexivity|lia]. Qed.

(** Numbers below 2^10 are rounded by less than 2^-42. *)
Lemma round_near s p e : -1074 <= e -> Z.pos p * 2 ^ (e + 1074) < 2 ^ 1084 ->
  let r := binary_round 53 1024 s p e in
  fin r /\ Z.abs (val r - cond_Zopp s (Z.pos p) * 2 ^ (e + 1074)) <= 2 ^ 1031.
Proof.
  intros E0 B. pose proof (digits_bounds p) as D. unfold binary_round. set (d := Z.pos (digits2_pos p)) in *.
  assert (D0 : 0 < d) by (unfold d; lia).
  assert (DE : d + e <= 10).
  { assert (d - 1 + (e + 1074) < 1084); [|lia]. apply (Z.pow_lt_mono_r_iff 2); [lia|lia|]. rewrite Z.pow_add_r by lia.
    apply Z.le_lt_trans with (Z.pos p * 2 ^ (e + 1074)); [|exact B]. apply Z.mul_le_mono_nonneg_r; [apply Z.pow_nonneg; lia|lia]. }
  set (f := fexp 53 1024 (d + e)). assert (F : f = Z.max (d + e - 53) (-1074)) by reflexivity.
  assert (UP : 2 ^ (f + 1074) <= 2 ^ 1031) by (apply Z.pow_le_mono_r; lia).
  destruct (Z.le_gt_cases e f) as [L|L].
  - rewrite shl_not by exact L. cbv zeta.
    assert (ED : Zdigits2 (Z.pos p) = d) by reflexivity.
    destruct (round_aux s (Z.pos p) e E0 ltac:(lia)) as [R1 R2]; [rewrite ED; fold f; lia|]. rewrite ED in R2. fold f in R2.
    split; [exact R1|]. exact (Z.le_trans _ _ _ R2 UP).
  - destruct (shl_down p e f ltac:(lia)) as [S1 S2]. destruct (shl_align p e f) as [p' e']. cbn [fst snd] in *. subst e'. cbv zeta.
    assert (P1 : 2 ^ (d - 1 + (e - f)) = 2 ^ (d - 1) * 2 ^ (e - f)) by (apply Z.pow_add_r; lia).
    assert (P2 : 2 ^ (d + (e - f)) = 2 ^ d * 2 ^ (e - f)) by (apply Z.pow_add_r; lia).
    pose proof (Z.pow_pos_nonneg 2 (e - f) ltac:(lia) ltac:(lia)) as PP.
    assert (ED : Zdigits2 (Z.pos p') = d + (e - f)).
    { cbn [Zdigits2]. apply digits_unique; [lia|]. replace (d + (e - f) - 1) with (d - 1 + (e - f)) by lia. rewrite P1, P2, S2. split.
      - apply Z.mul_le_mono_nonneg_r; lia.
      - apply Z.mul_lt_mono_pos_r; lia. }
    assert (EF : fexp 53 1024 (Zdigits2 (Z.pos p') + f) = f) by (rewrite ED; replace (d + (e - f) + f) with (d + e) by lia; reflexivity).
    destruct (round_aux s (Z.pos p') f ltac:(lia) ltac:(lia)) as [R1 R2]; [rewrite EF; lia|]. rewrite EF in R2.
    split; [exact R1|].
    replace (cond_Zopp s (Z.pos p) * 2 ^ (e + 1074)) with (cond_Zopp s (Z.pos p') * 2 ^ (f + 1074)); [exact (Z.le_trans _ _ _ R2 UP)|].
    assert (PS : 2 ^ (e + 1074) = 2 ^ (e - f) * 2 ^ (f + 1074)).
    { rewrite <- Z.pow_add_r by lia. replace (e - f + (f + 1074)) with (e + 1074) by lia. reflexivity. }
    rewrite PS. destruct s; cbn [cond_Zopp]; rewrite S2; ring.
Qed.

Lemma normalize_near m e s : -1074 <= e -> Z.abs m * 2 ^ (e + 1074) < 2 ^ 1084 ->
  let r := binary_normalize 53 1024 m e s in fin r /\ Z.abs (val r - m * 2 ^ (e + 1074)) <= 2 ^ 1031.
Proof.
  intros E0 B. destruct m as [|p|p]; cbn [binary_normalize].
  - split; [exact I|]. cbn [val]. rewrite Z.mul_0_l. discriminate.
  - exact (round_near false p e E0 B).
  - exact (round_near true p e E0 B).
Qed.

Lemma fin_low m e : fexp 53 1024 (Z.pos (digits2_pos m) + e) = e -> -1074 <= e /\ Z.pos (digits2_pos m) <= 53 /\ (-1074 < e -> Z.pos (digits2_pos m) = 53).
Proof. rewrite fexp_max. lia. Qed.

Lemma align_val s m e ez : -1074 <= ez <= e -> cond_Zopp s (Z.pos (fst (shl_align m e ez))) * 2 ^ (ez + 1074) = cond_Zopp s (Z.pos m) * 2 ^ (e + 1074).
Proof.
  intros L. destruct (shl_down m e ez ltac:(lia)) as [_ S2]. replace (e + 1074) with (e - ez + (ez + 1074)) by lia.
  rewrite (Z.pow_add_r 2 (e - ez)) by lia. destruct s; cbn [cond_Zopp]; rewrite S2; ring.
Qed.

Lemma small_pow : 0 <= 2 ^ 1031. Proof. apply Z.pow_nonneg. lia. Qed.

Lemma add_near x y : fin x -> fin y -> Z.abs (val x + val y) < 2 ^ 1084 ->
  fin (SFadd 53 1024 x y) /\ Z.abs (val (SFadd 53 1024 x y) - (val x + val y)) <= 2 ^ 1031.
Proof.
  pose proof small_pow as SP.
  destruct x as [sx|sx| |sx mx ex], y as [sy|sy| |sy my ey]; cbn [fin val SFadd]; intros FX FY B; try contradiction.
  - split; [destruct (Bool.eqb sx sy); exact I|]. destruct (Bool.eqb sx sy); exact SP.
  - split; [exact FY|]. rewrite Z.add_0_l, Z.sub_diag. exact SP.
  - split; [exact FX|]. rewrite Z.add_0_r, Z.sub_diag. exact SP.
  - pose proof (fin_low _ _ FX) as (LX & _). pose proof (fin_low _ _ FY) as (LY & _).
    set (ez := Z.min ex ey). assert (LZ : -1074 <= ez) by lia.
    rewrite <- (align_val sx mx ex ez), <- (align_val sy my ey ez) in * by lia.
    rewrite <- Z.mul_add_distr_r in *. apply normalize_near; [exact LZ|].
    rewrite Z.abs_mul, (Z.abs_eq (2 ^ _)) in B by (apply Z.pow_nonneg; lia). exact B.
Qed.
Lemma sub_near x y : fin x -> fin y -> Z.abs (val x - val y) < 2 ^ 1084 ->
  fin (SFsub 53 1024 x y) /\ Z.abs (val (SFsub 53 1024 x y) - (val x - val y)) <= 2 ^ 1031.
Proof.
  pose proof small_pow as SP.
  destruct x as [sx|sx| |sx mx ex], y as [sy|sy| |sy my ey]; cbn [fin val SFsub]; intros FX FY B; try contradiction.
  - split; [destruct (Bool.eqb sx (negb sy)); exact I|]. destruct (Bool.eqb sx (negb sy)); exact SP.
  - split; [exact FY|]. destruct sy; cbn [negb cond_Zopp];
    match goal with |- Z.abs ?a <= _ => replace a with 0 by ring end; exact SP.
  - split; [exact FX|]. rewrite Z.sub_0_r, Z.sub_diag. exact SP.
  - pose proof (fin_low _ _ FX) as (LX & _). pose proof (fin_low _ _ FY) as (LY & _).
    set (ez := Z.min ex ey). assert (LZ : -1074 <= ez) by lia.
    rewrite <- (align_val sx mx ex ez), <- (align_val sy my ey ez) in * by lia.
    rewrite <- Z.mul_sub_distr_r in *. apply normalize_near; [exact LZ|].
    rewrite Z.abs_mul, (Z.abs_eq (2 ^ _)) in B by (apply Z.pow_nonneg; lia). exact B.
Qed.

(** The product is in units of 2^-2148. *)
Lemma mul_near x y : fin x -> fin y -> Z.abs (val x * val y) < 2 ^ 2158 ->
  (forall s m e s' m' e', x = S754_finite s m e -> y = S754_finite s' m' e' -> -1074 <= e + e') ->
  fin (SFmul 53 1024 x y) /\ Z.abs (2 ^ 1074 * val (SFmul 53 1024 x y) - val x * val y) <= 2 ^ 2105.
Proof.
  assert (SP : 0 <= 2 ^ 2105) by (apply Z.pow_nonneg; lia).
  destruct x as [sx|sx| |sx mx ex], y as [sy|sy| |sy my ey]; intros FX FY B LE;
    try contradiction; try (cbn [SFmul val]; rewrite ?Z.mul_0_l, ?Z.mul_0_r; split; [exact I|exact SP]).
  specialize (LE _ _ _ _ _ _ eq_refl eq_refl). cbn [fin val SFmul] in *.
  pose proof (fin_low _ _ FX) as (LX & _ & NX). pose proof (fin_low _ _ FY) as (LY & _ & NY).
  set (p := (mx * my)%positive). set (e := ex + ey) in *. set (s := xorb sx sy).
  pose proof (digits_bounds p) as D. set (d := Z.pos (digits2_pos p)) in *. assert (D0 : 0 < d) by (unfold d; lia).
  assert (EV : cond_Zopp sx (Z.pos mx) * 2 ^ (ex + 1074) * (cond_Zopp sy (Z.pos my) * 2 ^ (ey + 1074)) =
    2 ^ 1074 * (cond_Zopp s (Z.pos p) * 2 ^ (e + 1074))).
  { replace (cond_Zopp s (Z.pos p)) with (cond_Zopp sx (Z.pos mx) * cond_Zopp sy (Z.pos my)) by (unfold s, p; destruct sx, sy; cbn; lia).
    replace (2 ^ 1074 * (cond_Zopp sx (Z.pos mx) * cond_Zopp sy (Z.pos my) * 2 ^ (e + 1074))) with
      (cond_Zopp sx (Z.pos mx) * cond_Zopp sy (Z.pos my) * (2 ^ 1074 * 2 ^ (e + 1074))) by ring.
    rewrite <- Z.pow_add_r by lia. replace (1074 + (e + 1074)) with (ex + 1074 + (ey + 1074)) by lia. rewrite (Z.pow_add_r 2 (ex + 1074) (ey + 1074)) by lia. ring. }
  rewrite EV in *.
  assert (AV : Z.abs (cond_Zopp s (Z.pos p)) = Z.pos p) by (destruct s; reflexivity).
  assert (D53 : 53 <= d).
  { assert (BIG : forall a b : positive, 2 ^ 52 <= Z.pos a -> 2 ^ 52 <= Z.pos (a * b) /\ 2 ^ 52 <= Z.pos (b * a)).
    { intros a b A. rewrite !Pos2Z.inj_mul. pose proof (Pos2Z.is_pos b). pose proof (Pos2Z.is_pos a).
      assert (Z.pos a * 1 <= Z.pos a * Z.pos b) by (apply Z.mul_le_mono_nonneg_l; lia). split; [lia|]. rewrite Z.mul_comm. lia. }
    assert (52 < d); [|lia]. apply (Z.pow_lt_mono_r_iff 2); [lia|lia|]. apply Z.le_lt_trans with (Z.pos p); [|lia].
    destruct (Z.eq_dec ex (-1074)) as [XE|XE].
    - assert (Y53 : Z.pos (digits2_pos my) = 53) by (apply NY; lia). pose proof (digits_bounds my) as DM. rewrite Y53 in DM. exact (proj2 (BIG my mx (proj1 DM))).
    - assert (X53 : Z.pos (digits2_pos mx) = 53) by (apply NX; lia). pose proof (digits_bounds mx) as DM. rewrite X53 in DM. exact (proj1 (BIG mx my (proj1 DM))). }
  assert (DE : d + e <= 10).
  { assert (1074 + (d - 1 + (e + 1074)) < 2158); [|lia]. apply (Z.pow_lt_mono_r_iff 2); [lia|lia|]. rewrite !Z.pow_add_r by lia.
    eapply Z.le_lt_trans; [|exact B]. rewrite !Z.abs_mul, AV, !(Z.abs_eq (2 ^ _)) by (apply Z.pow_nonneg; lia).
    apply Z.mul_le_mono_nonneg_l; [apply Z.pow_nonneg; lia|]. apply Z.mul_le_mono_nonneg_r; [apply Z.pow_nonneg; lia|lia]. }
  assert (F : fexp 53 1024 (d + e) = Z.max (d + e - 53) (-1074)) by reflexivity.
  assert (ED : Zdigits2 (Z.pos p) = d) by reflexivity.
  destruct (round_aux s (Z.pos p) e LE ltac:(lia)) as [R1 R2]; [rewrite ED, F; lia|]. rewrite ED, F in R2.
  split; [exact R1|]. rewrite <- Z.mul_sub_distr_l, Z.abs_mul, (Z.abs_eq (2 ^ 1074)) by (apply Z.pow_nonneg; lia).
  replace 2105 with (1074 + 1031) by lia. rewrite (Z.pow_add_r 2 1074 1031) by lia.
  apply Z.mul_le_mono_nonneg_l; [apply Z.pow_nonneg; lia|]. eapply Z.le_trans; [exact R2|]. apply Z.pow_le_mono_r; lia.
Qed.

(** ** Order *)

Lemma val_order s m e m' e' : fexp 53 1024 (Z.pos (digits2_pos m) + e) = e -> fexp 53 1024 (Z.pos (digits2_pos m') + e') = e' ->
  e < e' -> Z.abs (val (S754_finite s m e)) < Z.abs (val (S754_finite s m' e')).
Proof.
  intros F F' L. cbn [val]. pose proof (fin_low _ _ F) as (A & B & _). pose proof (fin_low _ _ F') as (_ & _ & C).
  rewrite !Z.abs_mul, !(Z.abs_eq (2 ^ _)) by (apply Z.pow_nonneg; lia).
  replace (Z.abs (cond_Zopp s (Z.pos m))) with (Z.pos m) by (destruct s; reflexivity).
  replace (Z.abs (cond_Zopp s (Z.pos m'))) with (Z.pos m') by (destruct s; reflexivity).
  pose proof (digits_bounds m) as [_ D]. pose proof (digits_bounds m') as [D' _]. rewrite (C ltac:(lia)) in D'.
  pose proof (Z.pow_pos_nonneg 2 (e + 1074) ltac:(lia) ltac:(lia)) as P.
  replace (e' + 1074) with (e' - e - 1 + (1 + (e + 1074))) by lia. rewrite (Z.pow_add_r 2 (e' - e - 1)), (Z.pow_add_r 2 1) by lia.
  pose proof (Z.pow_pos_nonneg 2 (e' - e - 1) ltac:(lia) ltac:(lia)) as P'. change (2 ^ 1) with 2.
  set (a := 2 ^ (e + 1074)) in *. set (b := 2 ^ (e' - e - 1)) in *. clearbody a b.
  assert (M : Z.pos m < 2 ^ 53) by (apply Z.lt_le_trans with (2 ^ Z.pos (digits2_pos m)); [exact D|apply Z.pow_le_mono_r; lia]).
  change (53 - 1) with 52 in D'. change (2 ^ 53) with (2 * 2 ^ 52) in M. set (h := 2 ^ 52) in *. assert (0 < h) by reflexivity. clearbody h.
  apply Z.lt_le_trans with (2 * h * a); [apply Z.mul_lt_mono_pos_r; assumption|].
  replace (Z.pos m' * (b * (2 * a))) with (Z.pos m' * b * (2 * a)) by ring. replace (2 * h * a) with (h * 1 * (2 * a)) by ring.
  apply Z.mul_le_mono_nonneg_r; [lia|]. apply Z.mul_le_mono_nonneg; lia.
Qed.

Lemma abs_sign s m e : -1074 <= e -> 0 < Z.abs (val (S754_finite s m e)) /\ val (S754_finite s m e) = cond_Zopp s (Z.abs (val (S754_finite s m e))).
Proof.
  intros L. cbn [val]. pose proof (Z.pow_pos_nonneg 2 (e + 1074) ltac:(lia) ltac:(lia)).
  assert (0 < Z.pos m * 2 ^ (e + 1074)) by (apply Z.mul_pos_pos; lia). destruct s; cbn [cond_Zopp]; lia.
Qed.

Lemma compare_val x y : fin x -> fin y -> SFcompare x y = Some (val x ?= val y).
Proof.
  destruct x as [sx|sx| |sx mx ex], y as [sy|sy| |sy my ey]; intros FX FY; try contradiction.
  - reflexivity.
  - destruct (fin_low _ _ FY) as (L & _). destruct (abs_sign sy my ey L) as [P E]. cbn [SFcompare]. rewrite E. cbn [val].
    symmetry. apply f_equal. destruct sy; cbn [cond_Zopp]; [apply Z.compare_gt_iff|apply Z.compare_lt_iff]; lia.
  - destruct (fin_low _ _ FX) as (L & _). destruct (abs_sign sx mx ex L) as [P E]. cbn [SFcompare]. rewrite E. cbn [val].
    symmetry. apply f_equal. destruct sx; cbn [cond_Zopp]; [apply Z.compare_lt_iff|apply Z.compare_gt_iff]; lia.
  - cbn [fin] in FX, FY. destruct (fin_low _ _ FX) as (LX & _). destruct (fin_low _ _ FY) as (LY & _).
    destruct (abs_sign sx mx ex LX) as [PX EX]. destruct (abs_sign sy my ey LY) as [PY EY].
    assert (SAME : sx = sy -> (ex < ey -> Z.abs (val (S754_finite sx mx ex)) < Z.abs (val (S754_finite sy my ey))) /\
      (ey < ex -> Z.abs (val (S754_finite sy my ey)) < Z.abs (val (S754_finite sx mx ex)))).
    { intros <-. split; apply val_order; assumption. }
    assert (EQ : ex = ey -> (Pcompare mx my Eq) = (Z.abs (val (S754_finite sx mx ex)) ?= Z.abs (val (S754_finite sy my ey)))).
    { intros <-. cbn [val]. rewrite !Z.abs_mul. replace (Z.abs (cond_Zopp sx (Z.pos mx))) with (Z.pos mx) by (destruct sx; reflexivity).
      replace (Z.abs (cond_Zopp sy (Z.pos my))) with (Z.pos my) by (destruct sy; reflexivity).
      rewrite <- Zmult_compare_compat_r; [reflexivity|]. pose proof (Z.pow_pos_nonneg 2 (ex + 1074) ltac:(lia) ltac:(lia)). lia. }
    cbn [SFcompare]. apply f_equal. rewrite EX, EY. clear EX EY. set (a := Z.abs _) in *. set (b := Z.abs (val (S754_finite sy my ey))) in *.
    clearbody a b. destruct sx, sy; cbn [cond_Zopp]; symmetry.
    + destruct (SAME eq_refl) as [S1 S2]. destruct (Z.compare_spec ex ey) as [E|E|E].
      * rewrite (EQ E). rewrite Z.compare_opp. apply Z.compare_antisym.
      * apply Z.compare_gt_iff. specialize (S1 E). lia.
      * apply Z.compare_lt_iff. specialize (S2 E). lia.
    + apply Z.compare_lt_iff. lia.
    + apply Z.compare_gt_iff. lia.
    + destruct (SAME eq_refl) as [S1 S2]. destruct (Z.compare_spec ex ey) as [E|E|E].
      * symmetry. exact (EQ E).
      * apply Z.compare_lt_iff. exact (S1 E).
      * apply Z.compare_gt_iff. exact (S2 E).
Qed.
Lemma ltb_val x y : fin x -> fin y -> SFltb x y = (val x <? val y).
Proof. intros FX FY. unfold SFltb, Z.ltb. rewrite compare_val by assumption. destruct (val x ?= val y); reflexivity. Qed.
Lemma leb_val x y : fin x -> fin y -> SFleb x y = (val x <=? val y).
Proof. intros FX FY. unfold SFleb, Z.leb. rewrite compare_val by assumption. destruct (val x ?= val y); reflexivity. Qed.
Lemma abs_val x : fin x -> fin (SFabs x) /\ val (SFabs x) = Z.abs (val x).
Proof.
  destruct x as [s|s| |s m e]; cbn [fin SFabs]; intros F; try contradiction; [split; [exact I|reflexivity]|].
  split; [exact F|]. cbn [val cond_Zopp]. rewrite Z.abs_mul, (Z.abs_eq (2 ^ _)) by (destruct (fin_low _ _ F); apply Z.pow_nonneg; lia).
  destruct s; reflexivity.
Qed.
