(** The values that the scalar kernels cast to [u8] are bytes already. *)
From Coq Require Import ZArith List Bool Lia ZifyBool ZifyNat.
Import ListNotations.
From Verif Require Import Base Exec Common Scalar KernelBase.
Open Scope Z_scope.
Ltac Zify.zify_post_hook ::= Z.div_mod_to_equations.

Lemma affine_runs x y z ax ay az bw T m :
  0 <= x <= 1020 -> 0 <= y <= 1020 -> 0 <= z <= 1020 ->
  -65536 <= ax <= 65536 -> -65536 <= ay <= 65536 -> -65536 <= az <= 65536 ->
  0 <= bw <= 134217728 ->
  affine_transform x y z ax ay az bw T m = Ok (ax * x + ay * y + az * z + bw) m.
Proof.
  intros. rewrite (exec_affine T (srcs m) (map (@length Z) (dsts m)) x y z ax ay az bw) by (assumption || (split; reflexivity)).
  reflexivity.
Qed.

Lemma byte_cast v : 0 <= v <= 255 -> u8 v = v.
Proof. unfold u8. intros. apply Z.mod_small. lia. Qed.

Lemma luma_cast c r g b T m : 0 <= r <= 255 -> 0 <= g <= 255 -> 0 <= b <= 255 ->
  exists v, affine_transform r g b (XR c) (XG c) (XB c) (YO c) T m = Ok v m /\
    u8 (fix_to_i32 v FIX16) = fix_to_i32 v FIX16.
Proof.
  intros. eexists. split.
  - apply affine_runs; try lia; destruct c; cbv; split; congruence.
  - apply byte_cast. unfold fix_to_i32. rewrite Z.shiftr_div_pow2 by (cbv; congruence).
    change (2 ^ FIX16) with 65536.
    destruct c; match goal with |- context [YO ?k] => let v := eval vm_compute in (YO k) in change (YO k) with v end;
      cbv [XR XG XB]; lia.
Qed.

Lemma chroma_cast c n f co r g b T m :
  n = 1 /\ f = FIX16 /\ co = FIX16_C_HALF + (FIX16_HALF - 1) \/
  n = 4 /\ f = FIX18 /\ co = FIX18_C_HALF + (FIX18_HALF - 1) ->
  0 <= r <= n * 255 -> 0 <= g <= n * 255 -> 0 <= b <= n * 255 ->
  exists yb zb u v, fwd_yb c T m = Ok yb m /\ fwd_zb c yb T m = Ok zb m /\
    affine_transform r g b (YR c) (YG c) yb co T m = Ok u m /\
    affine_transform r g b yb (ZG c) zb co T m = Ok v m /\
    u8 (fix_to_i32 u f) = fix_to_i32 u f /\ u8 (fix_to_i32 v f) = fix_to_i32 v f.
Proof.
  intros Hn Hr Hg Hb.
  exists (- (YR c + YG c)), (YR c + YG c - ZG c). do 2 eexists.
  assert (0 <= co <= 134217728) by (destruct Hn as [(_ & _ & ->)|(_ & _ & ->)]; cbv; split; congruence).
  assert (n <= 4) by lia.
  split; [destruct c; destruct T; reflexivity|]. split; [destruct c; destruct T; reflexivity|].
  split; [apply affine_runs; try lia; destruct c; cbv; split; congruence|].
  split; [apply affine_runs; try lia; destruct c; cbv; split; congruence|].
  unfold fix_to_i32. rewrite !Z.shiftr_div_pow2 by (destruct Hn as [(_ & -> & _)|(_ & -> & _)]; cbv; congruence).
  destruct Hn as [(-> & -> & ->)|(-> & -> & ->)]; split; apply byte_cast.
  1, 2: change (2 ^ FIX16) with 65536; change (FIX16_C_HALF + (FIX16_HALF - 1)) with 8421375.
  3, 4: change (2 ^ FIX18) with 262144; change (FIX18_C_HALF + (FIX18_HALF - 1)) with 33685503.
  all: destruct c; cbv [YR YG ZG]; lia.
Qed.
