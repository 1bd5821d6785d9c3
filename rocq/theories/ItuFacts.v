(** The fixed-point formulas of [Spec] against the definitions of [Itu]. *)
From Coq Require Import ZArith QArith Qabs Qminmax Lia Lqa Qfield Qreduction.
From Verif Require Import Fmt Spec PixelFacts Itu PixelSpec.
Open Scope Z_scope.
Ltac Zify.zify_post_hook ::= Z.div_mod_to_equations.

(** The transform inverts exactly over the rationals (sanity check of the definitions). *)
Lemma exact_inverse cs p : let '(r, g, b) := p in
  let '(r', g', b') := exact_rgb cs (exact_y cs p) (exact_cb cs p) (exact_cr cs p) in
  (r' == r /\ g' == g /\ b' == b)%Q.
Proof.
  destruct p as [[r g] b].
  destruct cs; cbv [exact_rgb exact_y exact_cb exact_cr q_luma kr kg kb y_black y_span c_span limited];
    repeat split; field; lra.
Qed.

Lemma near_scaled e n x a D : (0 < D)%Z -> (x == inject_Z a / inject_Z D)%Q ->
  (inject_Z (Z.abs (n * D - a)) <= e * inject_Z D)%Q -> near e n x.
Proof.
  intros HD E H. unfold near. rewrite E.
  assert (P : (0 < inject_Z D)%Q) by (change 0%Q with (inject_Z 0); rewrite <- Zlt_Qlt; exact HD).
  assert (N : ~ (inject_Z D == 0)%Q) by lra.
  assert (X : (inject_Z n - inject_Z a / inject_Z D == inject_Z (n * D - a) / inject_Z D)%Q).
  { unfold Z.sub. rewrite inject_Z_plus, inject_Z_opp, inject_Z_mult. field. exact N. }
  rewrite X. unfold Qdiv. rewrite Qabs_Qmult.
  assert (Y : (Qabs (/ inject_Z D) == / inject_Z D)%Q).
  { apply Qabs_pos. apply Qlt_le_weak. apply Qinv_lt_0_compat. exact P. }
  rewrite Y. apply Qle_shift_div_r; [exact P|].
  change (inject_Z (Z.abs (n * D - a))) with (Qabs (inject_Z (n * D - a))) in H. exact H.
Qed.

Definition not_rgb (cs : color_space) : Prop := cs <> CsRgb.

Ltac q_consts :=
  repeat match goal with
  | |- context [inject_Z (Zpos ?p)] => change (inject_Z (Zpos p)) with (Zpos p # 1)%Q
  | |- context [inject_Z (Zneg ?p)] => change (inject_Z (Zneg p)) with (Zneg p # 1)%Q
  | |- context [inject_Z Z0] => change (inject_Z Z0) with (0 # 1)%Q
  end.
(** Moves integer inequalities to the rationals and concludes by linear arithmetic. *)
Ltac by_q :=
  unfold Z.sub in *;
  repeat match goal with
  | H : _ /\ _ |- _ => destruct H
  | H : (?a <= ?b)%Z |- _ => rewrite Zle_Qle in H; revert H
  end;
  rewrite ?inject_Z_plus, ?inject_Z_mult, ?inject_Z_opp; 
  repeat (progress (rewrite ?inject_Z_plus, ?inject_Z_mult, ?inject_Z_opp));
  repeat match goal with
  | |- context [inject_Z ?x] => is_var x; let q := fresh "q" in set (q := inject_Z x); clearbody q
  end;
  q_consts; cbv [Qdiv]; repeat match goal with |- context [(/ ?x)%Q] => let v := eval compute in (/ x)%Q in change (/ x)%Q with v end;
  intros; try split; lra.

Lemma luma_bounds cs r g b : let n := luma cs (r, g, b) in
  let '(kx, ky, kz) := y_weights cs in
  65536 * (n - y_min cs) <= kx * r + ky * g + kz * b + 32768 /\
  kx * r + ky * g + kz * b + 32768 <= 65536 * (n - y_min cs) + 65535.
Proof. unfold luma, round_up, dot. destruct cs; cbn [y_weights y_min]; lia. Qed.

Lemma luma_near cs r g b : cs <> CsRgb -> is_byte r -> is_byte g -> is_byte b ->
  near (51 # 100) (luma cs (r, g, b)) (exact_y cs (q_of (r, g, b))).
Proof.
  intros N Hr Hg Hb. pose proof (luma_bounds cs r g b) as B. unfold is_byte in *.
  set (n := luma cs (r, g, b)) in *. clearbody n.
  unfold near. apply Qabs_Qle_condition.
  destruct cs; try congruence; cbn [y_weights y_min] in B;
  cbv [exact_y q_of q_luma kr kg kb y_black y_span c_span limited];
  by_q.
Qed.

(** Chroma with either rounding of exact halves: [blue_diff cs] is [chroma false (cb_weights cs)]
    and [blue_diff_up cs] is [chroma true (cb_weights cs)]. *)
Definition chroma (up : bool) (k : Z * Z * Z) (n : Z) (p : rgb) : Z :=
  128 + (if up then round_up else round_down) (dot k p) (n * 65536).

Lemma chroma_bounds up k n p : n = 1 \/ n = 4 -> let c := chroma up k n p in
  n * 65536 * (c - 128) <= dot k p + n * 32768 /\ dot k p <= n * 65536 * (c - 128) + n * 32768.
Proof.
  intros Hn. unfold chroma, round_down, round_up. set (d := dot k p). clearbody d.
  destruct up, Hn; subst; lia.
Qed.

Lemma cb_near up cs n r g b : cs <> CsRgb -> n = 1 \/ n = 4 ->
  0 <= r <= n * 255 -> 0 <= g <= n * 255 -> 0 <= b <= n * 255 ->
  near (51 # 100) (chroma up (cb_weights cs) n (r, g, b)) (exact_cb cs (q_average n (r, g, b))).
Proof.
  intros N Hn Hr Hg Hb. pose proof (chroma_bounds up (cb_weights cs) n (r, g, b) Hn) as B.
  set (c := chroma up (cb_weights cs) n (r, g, b)) in *. clearbody c.
  unfold near. apply Qabs_Qle_condition.
  destruct Hn; subst n;
  destruct cs; try congruence; cbn [cb_weights dot] in B;
  cbv [exact_cb q_average q_luma kr kg kb y_black y_span c_span limited]; by_q.
Qed.

Lemma cr_near up cs n r g b : cs <> CsRgb -> n = 1 \/ n = 4 ->
  0 <= r <= n * 255 -> 0 <= g <= n * 255 -> 0 <= b <= n * 255 ->
  near (51 # 100) (chroma up (cr_weights cs) n (r, g, b)) (exact_cr cs (q_average n (r, g, b))).
Proof.
  intros N Hn Hr Hg Hb. pose proof (chroma_bounds up (cr_weights cs) n (r, g, b) Hn) as B.
  set (c := chroma up (cr_weights cs) n (r, g, b)) in *. clearbody c.
  unfold near. apply Qabs_Qle_condition.
  destruct Hn; subst n;
  destruct cs; try congruence; cbn [cr_weights dot] in B;
  cbv [exact_cr q_average q_luma kr kg kb y_black y_span c_span limited]; by_q.
Qed.

Lemma floor_bounds a d : 0 < d -> d * (a / d) <= a /\ a <= d * (a / d) + (d - 1).
Proof. intros. pose proof (Z.div_mod a d). pose proof (Z.mod_pos_bound a d). lia. Qed.

Lemma near_clamp e n x : near e n x -> near e (clamp255 n) (q_clamp x).
Proof.
  unfold near, clamp255, q_clamp. intros H. apply Qabs_Qle_condition in H. apply Qabs_Qle_condition.
  destruct H as [H1 H2].
  assert (L : (n <= 0 \/ 0 <= n <= 255 \/ 255 <= n)%Z) by lia.
  destruct (Q.min_spec 255 x) as [[A1 A2]|[A1 A2]]; rewrite A2;
  [destruct (Q.max_spec 0 255) as [[B1 B2]|[B1 B2]]|destruct (Q.max_spec 0 x) as [[B1 B2]|[B1 B2]]]; rewrite B2;
  (destruct L as [L|[L|L]];
   [replace (Z.max 0 (Z.min 255 n)) with 0%Z by lia
   |replace (Z.max 0 (Z.min 255 n)) with n by lia
   |replace (Z.max 0 (Z.min 255 n)) with 255%Z by lia]);
  repeat match goal with H : (_ /\ _)%Z |- _ => destruct H end;
  repeat match goal with H : (_ <= _)%Z |- _ => rewrite Zle_Qle in H end;
  change (inject_Z 0) with 0%Q in *; change (inject_Z 255) with 255%Q in *; split; lra.
Qed.

(** Distance to the exact inverse transform. *)
Lemma rgb_near cs y cb cr : cs <> CsRgb -> is_byte y -> is_byte cb -> is_byte cr ->
  let '(r, g, b) := ycc_to_rgb cs y cb cr in
  let '(er, eg, eb) := exact_rgb cs (inject_Z y) (inject_Z cb) (inject_Z cr) in
  near (rgb_error cs) r (q_clamp er) /\ near (rgb_error cs) g (q_clamp eg) /\ near (rgb_error cs) b (q_clamp eb).
Proof.
  intros N Hy Hb Hr. unfold ycc_to_rgb, rgb64, is_byte in *.
  destruct cs; try congruence; cbn [rgb_coefs];
  repeat match goal with |- context [?a * ?k / 256] =>
    let v := fresh "v" in
    pose proof (floor_bounds (a * k) 256 eq_refl); set (v := a * k / 256) in *; clearbody v end;
  repeat match goal with |- context [?a / 64] =>
    let v := fresh "n" in
    pose proof (floor_bounds a 64 eq_refl); set (v := a / 64) in *; clearbody v end;
  unfold exact_rgb; repeat split; apply near_clamp; unfold near; apply Qabs_Qle_condition;
  cbv [exact_rgb rgb_error kr kg kb y_black y_span c_span limited]; by_q.
Qed.
