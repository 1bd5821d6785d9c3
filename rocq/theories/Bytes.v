(** Little endian words as byte lists. *)
From Coq Require Import ZArith List Bool Lia ZifyBool ZifyNat.
Import ListNotations.
From Verif Require Import Base Exec PixelFacts.
Open Scope Z_scope.

Definition bytes (l : list Z) : Prop := Forall is_byte l.

Lemma testbit_cons b x n : is_byte b -> 0 <= n ->
  Z.testbit (b + 256 * x) n = if n <? 8 then Z.testbit b n else Z.testbit x (n - 8).
Proof.
  intros Hb Hn. unfold is_byte in Hb. destruct (Z.ltb_spec n 8).
  - rewrite <- (Z.mod_pow2_bits_low _ 8) by lia. change (2 ^ 8) with 256.
    rewrite (Z.mul_comm 256), Z.mod_add, Z.mod_small by lia. reflexivity.
  - replace n with ((n - 8) + 8) at 1 by lia. rewrite <- Z.div_pow2_bits by lia.
    change (2 ^ 8) with 256. rewrite (Z.mul_comm 256), Z.div_add, Z.div_small by lia. reflexivity.
Qed.

Lemma land_255 a : is_byte a -> Z.land a 255 = a.
Proof. intros H. change 255 with (Z.ones 8). rewrite Z.land_ones by lia. apply Z.mod_small. unfold is_byte in H; lia. Qed.

Lemma byte_land a b : is_byte a -> is_byte b -> is_byte (Z.land a b).
Proof.
  intros Ha Hb.
  assert (E : Z.land a b = Z.land a b mod 2 ^ 8).
  { rewrite <- Z.land_ones, <- Z.land_assoc by lia. change (Z.ones 8) with 255.
    rewrite (land_255 b) by auto. reflexivity. }
  pose proof (Z.mod_pos_bound (Z.land a b) (2 ^ 8) ltac:(lia)). unfold is_byte. lia.
Qed.

Lemma byte_lor a b : is_byte a -> is_byte b -> is_byte (Z.lor a b).
Proof.
  intros Ha Hb.
  assert (E : Z.lor a b = Z.lor a b mod 2 ^ 8).
  { rewrite <- Z.land_ones, Z.land_lor_distr_l by lia. change (Z.ones 8) with 255.
    rewrite !land_255 by auto. reflexivity. }
  pose proof (Z.mod_pos_bound (Z.lor a b) (2 ^ 8) ltac:(lia)). unfold is_byte. lia.
Qed.

Lemma land_cons a x b y : is_byte a -> is_byte b ->
  Z.land (a + 256 * x) (b + 256 * y) = Z.land a b + 256 * Z.land x y.
Proof.
  intros Ha Hb. apply Z.bits_inj'. intros n Hn.
  rewrite Z.land_spec, !testbit_cons by auto using byte_land.
  destruct (n <? 8); rewrite Z.land_spec; reflexivity.
Qed.

Lemma lor_cons a x b y : is_byte a -> is_byte b ->
  Z.lor (a + 256 * x) (b + 256 * y) = Z.lor a b + 256 * Z.lor x y.
Proof.
  intros Ha Hb. apply Z.bits_inj'. intros n Hn.
  rewrite Z.lor_spec, !testbit_cons by auto using byte_lor.
  destruct (n <? 8); rewrite Z.lor_spec; reflexivity.
Qed.

Fixpoint map2 (f : Z -> Z -> Z) (l l' : list Z) : list Z :=
  match l, l' with
  | a :: l, b :: l' => f a b :: map2 f l l'
  | _, _ => []
  end.

Lemma land_of_bytes l l' : bytes l -> bytes l' -> length l = length l' ->
  Z.land (of_bytes l) (of_bytes l') = of_bytes (map2 Z.land l l').
Proof.
  intros H. revert l'. induction H as [|a l Ha H IH]; intros [|b l'] H' E; try discriminate; cbn [of_bytes map2].
  - reflexivity.
  - inversion H'; subst. rewrite land_cons by auto. rewrite IH by (auto; cbn in E; lia). reflexivity.
Qed.

Lemma lor_of_bytes l l' : bytes l -> bytes l' -> length l = length l' ->
  Z.lor (of_bytes l) (of_bytes l') = of_bytes (map2 Z.lor l l').
Proof.
  intros H. revert l'. induction H as [|a l Ha H IH]; intros [|b l'] H' E; try discriminate; cbn [of_bytes map2].
  - reflexivity.
  - inversion H'; subst. rewrite lor_cons by auto. rewrite IH by (auto; cbn in E; lia). reflexivity.
Qed.

Lemma of_bytes_range l : bytes l -> 0 <= of_bytes l < 256 ^ Z.of_nat (length l).
Proof.
  induction 1 as [|a l Ha H IH]; cbn [of_bytes length].
  - cbn. lia.
  - rewrite Nat2Z.inj_succ, Z.pow_succ_r by lia. unfold is_byte in Ha. lia.
Qed.

Lemma to_of_bytes l : bytes l -> to_bytes (length l) (of_bytes l) = l.
Proof.
  induction 1 as [|a l Ha H IH]; cbn [of_bytes length to_bytes]; auto.
  unfold is_byte in Ha.
  rewrite (Z.mul_comm 256), Z.mod_add, Z.div_add, Z.mod_small, Z.div_small by lia.
  rewrite Z.add_0_l, IH. reflexivity.
Qed.

Lemma of_bytes_app l l' : of_bytes (l ++ l') = of_bytes l + 256 ^ zlen l * of_bytes l'.
Proof.
  unfold zlen. induction l as [|a l IH]; cbn [of_bytes app length].
  - rewrite Z.pow_0_r. lia.
  - rewrite IH, Nat2Z.inj_succ, Z.pow_succ_r by lia. ring.
Qed.

Lemma pow_256 k : 2 ^ (8 * Z.of_nat k) = 256 ^ Z.of_nat k.
Proof. rewrite Z.pow_mul_r by lia. reflexivity. Qed.

Lemma bytes_app l l' : bytes (l ++ l') <-> bytes l /\ bytes l'.
Proof. apply Forall_app. Qed.

Lemma shiftr_of_bytes l l' : bytes l ->
  Z.shiftr (of_bytes (l ++ l')) (8 * zlen l) = of_bytes l'.
Proof.
  intros H. unfold zlen. rewrite Z.shiftr_div_pow2, pow_256, of_bytes_app by lia.
  unfold zlen.
  pose proof (of_bytes_range l H).
  rewrite Z.mul_comm, Z.div_add, Z.div_small by lia. lia.
Qed.

Lemma of_bytes_zeros k : of_bytes (repeat 0 k) = 0.
Proof. induction k; cbn [repeat of_bytes]; lia. Qed.

Lemma of_bytes_snoc0 l k : of_bytes (l ++ repeat 0 k) = of_bytes l.
Proof. rewrite of_bytes_app, of_bytes_zeros. lia. Qed.

(** [(x << 8k)] truncated to [n] bytes. *)
Lemma shiftl_of_bytes l l' k n : bytes l -> (k + length l)%nat = n ->
  Z.shiftl (of_bytes (l ++ l')) (8 * Z.of_nat k) mod 256 ^ Z.of_nat n
  = of_bytes (repeat 0 k ++ l).
Proof.
  intros H E. rewrite Z.shiftl_mul_pow2, pow_256 by lia.
  rewrite !of_bytes_app, of_bytes_zeros. unfold zlen. rewrite repeat_length.
  pose proof (of_bytes_range l H).
  replace (Z.of_nat n) with (Z.of_nat k + Z.of_nat (length l)) by lia.
  rewrite Z.pow_add_r by lia.
  replace ((of_bytes l + 256 ^ Z.of_nat (length l) * of_bytes l') * 256 ^ Z.of_nat k)
    with (256 ^ Z.of_nat k * of_bytes l + of_bytes l' * (256 ^ Z.of_nat k * 256 ^ Z.of_nat (length l))) by ring.
  rewrite Z.mod_add by (apply Z.neq_mul_0; split; apply Z.pow_nonzero; lia).
  rewrite Z.mod_small; [lia|].
  assert (0 < 256 ^ Z.of_nat k) by (apply Z.pow_pos_nonneg; lia). nia.
Qed.

Lemma u64_pow x : u64 x = x mod 256 ^ Z.of_nat 8.
Proof. reflexivity. Qed.
Lemma u32_pow x : u32 x = x mod 256 ^ Z.of_nat 4.
Proof. reflexivity. Qed.

Lemma lor_255 a : is_byte a -> Z.lor a 255 = 255.
Proof.
  intros H. apply Z.bits_inj'. intros n Hn. rewrite Z.lor_spec. change 255 with (Z.ones 8).
  destruct (Z.lt_ge_cases n 8).
  - rewrite Z.ones_spec_low by lia. apply orb_true_r.
  - rewrite Z.ones_spec_high by lia. rewrite orb_false_r.
    rewrite <- (Z.mod_small a (2 ^ 8)) by (unfold is_byte in H; lia). apply Z.mod_pow2_bits_high; lia.
Qed.

Lemma bytes_to_bytes n x : bytes (to_bytes n x).
Proof.
  revert x. induction n; intros x; cbn [to_bytes]; [apply Forall_nil|].
  apply Forall_cons; [|apply IHn].
  unfold is_byte. pose proof (Z.mod_pos_bound x 256 ltac:(lia)). lia.
Qed.

Lemma to_bytes_length n x : length (to_bytes n x) = n.
Proof. revert x. induction n; intros; cbn; auto. Qed.

(** ** Eight and four byte words *)
Lemma bytes_firstn k l : bytes l -> bytes (firstn k l).
Proof. intros H. rewrite <- (firstn_skipn k l) in H. apply bytes_app in H. tauto. Qed.
Lemma bytes_skipn k l : bytes l -> bytes (skipn k l).
Proof. intros H. rewrite <- (firstn_skipn k l) in H. apply bytes_app in H. tauto. Qed.

Lemma shr_bytes k l : bytes l -> (k <= length l)%nat ->
  Z.shiftr (of_bytes l) (8 * Z.of_nat k) = of_bytes (skipn k l ++ repeat 0 k).
Proof.
  intros H Hk. rewrite of_bytes_snoc0.
  rewrite <- (firstn_skipn k l) at 1.
  rewrite <- (shiftr_of_bytes (firstn k l) (skipn k l)) by (apply bytes_firstn; auto).
  do 2 f_equal. unfold zlen. rewrite firstn_length. lia.
Qed.

Lemma shl_bytes n k l : bytes l -> (k <= length l)%nat -> length l = n ->
  Z.shiftl (of_bytes l) (8 * Z.of_nat k) mod 256 ^ Z.of_nat n
  = of_bytes (repeat 0 k ++ firstn (n - k) l).
Proof.
  intros H Hk Hn. rewrite <- (firstn_skipn (n - k) l) at 1.
  apply shiftl_of_bytes; [apply bytes_firstn; auto|]. rewrite firstn_length. lia.
Qed.

Lemma swap64_bytes l : bytes l -> length l = 8%nat -> swap_bytes64 (of_bytes l) = of_bytes (rev l).
Proof. intros H E. unfold swap_bytes64. rewrite <- E, to_of_bytes by auto. reflexivity. Qed.
Lemma swap32_bytes l : bytes l -> length l = 4%nat -> swap_bytes32 (of_bytes l) = of_bytes (rev l).
Proof. intros H E. unfold swap_bytes32. rewrite <- E, to_of_bytes by auto. reflexivity. Qed.

Lemma land_0 a : Z.land a 0 = 0. Proof. apply Z.land_0_r. Qed.
Lemma lor_0 a : Z.lor a 0 = a. Proof. apply Z.lor_0_r. Qed.
Lemma lor_0' a : Z.lor 0 a = a. Proof. apply Z.lor_0_l. Qed.

(** Solves [bytes [..]] from hypotheses on the elements. *)
Ltac solve_bytes :=
  cbn [map2 app repeat skipn firstn rev Nat.sub length];
  repeat first [apply Forall_nil | apply Forall_cons];
  try assumption; try (unfold is_byte; lia);
  try (apply byte_land; [assumption|unfold is_byte; lia]).
