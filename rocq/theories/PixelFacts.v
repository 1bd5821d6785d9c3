(** Facts about the pixel formulas: the arithmetic of the scalar kernels computes
    the functions of [Spec]. *)
From Coq Require Import ZArith List Bool Lia ZifyBool ZifyNat.
Import ListNotations.
From Verif Require Import Base Exec Fmt Common Scalar Spec.
Open Scope Z_scope.
Ltac Zify.zify_post_hook ::= Z.div_mod_to_equations.

Definition cs_of (c : colorimetry) : color_space :=
  match c with C601 => Bt601 | C709 => Bt709 | C601FR => Bt601FR | C709FR => Bt709FR end.

Definition is_byte (x : Z) : Prop := 0 <= x <= 255.

(** The blue weights the kernels derive. *)
Definition YB (c : colorimetry) : Z := - (YR c + YG c).
Definition ZB (c : colorimetry) : Z := - (YB c + ZG c).

Lemma luma_model c r g b : is_byte r -> is_byte g -> is_byte b ->
  u8 (fix_to_i32 (XR c * r + XG c * g + XB c * b + YO c) FIX16) = luma (cs_of c) (r, g, b).
Proof.
  unfold is_byte, u8, fix_to_i32, luma, round_up, dot. intros.
  rewrite Z.shiftr_div_pow2 by (vm_compute; discriminate).
  change (2 ^ FIX16) with 65536.
  destruct c; cbn [XR XG XB YO cs_of y_weights y_min];
  try change Y_OFFSET with 1081344; try change FIX16_HALF with 32768; lia.
Qed.

Lemma cb_model c r g b : is_byte r -> is_byte g -> is_byte b ->
  u8 (fix_to_i32 (YR c * r + YG c * g + YB c * b + (FIX16_C_HALF + (FIX16_HALF - 1))) FIX16)
  = blue_diff (cs_of c) 1 (r, g, b).
Proof.
  unfold is_byte, u8, fix_to_i32, blue_diff, round_down, round_up, dot. intros.
  rewrite Z.shiftr_div_pow2 by (vm_compute; discriminate).
  change (2 ^ FIX16) with 65536. change (FIX16_C_HALF + (FIX16_HALF - 1)) with 8421375.
  destruct c; unfold YB; cbn [YR YG cs_of cb_weights]; lia.
Qed.

Lemma cr_model c r g b : is_byte r -> is_byte g -> is_byte b ->
  u8 (fix_to_i32 (YB c * r + ZG c * g + ZB c * b + (FIX16_C_HALF + (FIX16_HALF - 1))) FIX16)
  = red_diff (cs_of c) 1 (r, g, b).
Proof.
  unfold is_byte, u8, fix_to_i32, red_diff, round_down, round_up, dot. intros.
  rewrite Z.shiftr_div_pow2 by (vm_compute; discriminate).
  change (2 ^ FIX16) with 65536. change (FIX16_C_HALF + (FIX16_HALF - 1)) with 8421375.
  destruct c; unfold YB, ZB, YB; cbn [YR YG ZG cs_of cr_weights]; lia.
Qed.

Lemma cb4_model c r g b : 0 <= r <= 1020 -> 0 <= g <= 1020 -> 0 <= b <= 1020 ->
  u8 (fix_to_i32 (YR c * r + YG c * g + YB c * b + (FIX18_C_HALF + (FIX18_HALF - 1))) FIX18)
  = blue_diff (cs_of c) 4 (r, g, b).
Proof.
  unfold is_byte, u8, fix_to_i32, blue_diff, round_down, round_up, dot. intros.
  rewrite Z.shiftr_div_pow2 by (vm_compute; discriminate).
  change (2 ^ FIX18) with 262144. change (FIX18_C_HALF + (FIX18_HALF - 1)) with 33685503.
  destruct c; unfold YB; cbn [YR YG cs_of cb_weights]; lia.
Qed.

Lemma cr4_model c r g b : 0 <= r <= 1020 -> 0 <= g <= 1020 -> 0 <= b <= 1020 ->
  u8 (fix_to_i32 (YB c * r + ZG c * g + ZB c * b + (FIX18_C_HALF + (FIX18_HALF - 1))) FIX18)
  = red_diff (cs_of c) 4 (r, g, b).
Proof.
  unfold is_byte, u8, fix_to_i32, red_diff, round_down, round_up, dot. intros.
  rewrite Z.shiftr_div_pow2 by (vm_compute; discriminate).
  change (2 ^ FIX18) with 262144. change (FIX18_C_HALF + (FIX18_HALF - 1)) with 33685503.
  destruct c; unfold YB, ZB, YB; cbn [YR YG ZG cs_of cr_weights]; lia.
Qed.

(** ** Saturation *)
Lemma land_lnot_ones x n : 0 <= n -> Z.land x (Z.lnot (Z.ones n)) = x - x mod 2 ^ n.
Proof.
  intros Hn. rewrite <- Z.ldiff_land.
  rewrite Z.ldiff_ones_r by auto.
  rewrite Z.shiftl_mul_pow2, Z.shiftr_div_pow2 by auto.
  pose proof (Z.div_mod x (2 ^ n) ltac:(apply Z.pow_nonzero; lia)). lia.
Qed.

Lemma fix_to_u8_sat_model x : - 2 ^ 31 <= x < 2 ^ 31 ->
  fix_to_u8_sat x FIX6 = clamp255 (x / 64).
Proof.
  intros Hx. unfold fix_to_u8_sat, clamp255, u8, u32.
  change (Z.shiftl 256 FIX6 - 1) with (Z.ones 14).
  rewrite land_lnot_ones by lia.
  rewrite !Z.shiftr_div_pow2 by (vm_compute; discriminate).
  change (2 ^ 14) with 16384. change (2 ^ FIX6) with 64.
  destruct (Z.eqb_spec (x - x mod 16384) 0) as [E|E].
  - assert (0 <= x < 16384) by lia. lia.
  - change (2 ^ 31) with 2147483648 in *. change (2 ^ 32) with 4294967296 in *.
    destruct (Z.lt_ge_cases x 0).
    + assert (H1 : x mod 4294967296 / 2147483648 = 1) by lia. rewrite H1.
      change (Z.land (1 + 255) 255 mod 256) with 0. lia.
    + assert (H1 : x mod 4294967296 / 2147483648 = 0) by lia. rewrite H1.
      change (Z.land (0 + 255) 255 mod 256) with 255. lia.
Qed.

(** ** Ranges of the specification functions *)
Lemma luma_range cs r g b : is_byte r -> is_byte g -> is_byte b -> is_byte (luma cs (r, g, b)).
Proof. unfold is_byte, luma, round_up, dot. destruct cs; cbn [y_weights y_min]; lia. Qed.
