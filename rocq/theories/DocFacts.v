(** Facts behind the theorems on the documented formulas. *)
From Coq Require Import ZArith QArith Qabs Qminmax List Bool Lia Lqa.
From Verif Require Import Base Fmt CpuInfo Lib Sets Spec SetSpec ApiSpec Api PixelFacts PropFacts
  Itu PixelSpec ItuFacts PixelApi DocSpec.
Open Scope Q_scope.

Lemma near_trans e d n x y : near e n x -> Qabs (x - y) <= d -> near (e + d) n y.
Proof.
  unfold near. intros H1 H2. apply Qabs_Qle_condition in H1. apply Qabs_Qle_condition in H2.
  apply Qabs_Qle_condition. split; lra.
Qed.

Lemma near_le e e' n x : near e n x -> e <= e' -> near e' n x.
Proof. unfold near. intros. lra. Qed.

Lemma clamp_close d x y : Qabs (x - y) <= d -> Qabs (q_clamp x - q_clamp y) <= d.
Proof.
  intros H. apply Qabs_Qle_condition in H. apply Qabs_Qle_condition. unfold q_clamp.
  destruct (Q.min_spec 255 x) as [[A1 A2]|[A1 A2]], (Q.min_spec 255 y) as [[B1 B2]|[B1 B2]]; rewrite A2, B2;
  repeat match goal with |- context [Qmax 0 ?v] =>
    destruct (Q.max_spec 0 v) as [[? E]|[? E]]; rewrite E; clear E end; split; lra.
Qed.

Ltac q_invs := cbv [Qdiv]; repeat match goal with
  |- context [(/ ?x)%Q] => let v := eval compute in (/ x)%Q in change (/ x)%Q with v end.

Lemma doc_forward_close cs r g b : cs <> CsRgb -> cs <> Bt709 ->
  0 <= r <= 255 -> 0 <= g <= 255 -> 0 <= b <= 255 ->
  Qabs (exact_y cs (r, g, b) - doc_y cs (r, g, b)) <= 1 # 4 /\
  Qabs (exact_cb cs (r, g, b) - doc_cb cs (r, g, b)) <= 1 # 4 /\
  Qabs (exact_cr cs (r, g, b) - doc_cr cs (r, g, b)) <= 1 # 4.
Proof.
  intros N N' Hr Hg Hb. destruct cs; try congruence;
  cbv [exact_y exact_cb exact_cr doc_y doc_cb doc_cr q_luma kr kg kb y_black y_span c_span limited];
  q_invs; (split; [|split]); apply Qabs_Qle_condition; split; lra.
Qed.

Lemma doc_inverse_close cs y cb cr : cs <> CsRgb -> 0 <= y <= 255 -> 0 <= cb <= 255 -> 0 <= cr <= 255 ->
  let '(r, g, b) := exact_rgb cs y cb cr in let '(r', g', b') := doc_rgb cs y cb cr in
  let d := doc_rgb_error cs - rgb_error cs in
  Qabs (r - r') <= d /\ Qabs (g - g') <= d /\ Qabs (b - b') <= d.
Proof.
  intros N Hy Hb Hr. destruct cs; try congruence;
  cbv [exact_rgb doc_rgb doc_rgb_error rgb_error kr kg kb y_black y_span c_span limited];
  q_invs; (split; [|split]); apply Qabs_Qle_condition; split; lra.
Qed.

Lemma average_range n p : n = 1%Z \/ n = 4%Z -> (0 <= p <= n * 255)%Z -> 0 <= inject_Z p / inject_Z n <= 255.
Proof.
  intros Hn [H1 H2]. rewrite Zle_Qle in H1, H2. rewrite inject_Z_mult in H2.
  destruct Hn as [-> | ->]; revert H1 H2; set (q := inject_Z p); clearbody q; q_consts; q_invs; intros; split; lra.
Qed.

Lemma byte_range p : (0 <= p <= 255)%Z -> 0 <= inject_Z p <= 255.
Proof. intros [H1 H2]. rewrite Zle_Qle in H1, H2. exact (conj H1 H2). Qed.

Open Scope Z_scope.
Lemma doc_forward set T w h src dst sb db m' : successful_call (converters set) T w h src dst sb db m' ->
  is_rgb (i_pf src) = true -> is_rgb (i_pf dst) = false -> i_cs dst <> Bt709 ->
  forall x y, 0 <= x < w -> 0 <= y < h ->
  let px := pixel src w h sb in
  let area := q_average (fst (chroma_area (i_pf dst) px x y)) (snd (chroma_area (i_pf dst) px x y)) in
  all_near (76 # 100) (pixel dst w h (dsts m') x y)
    (doc_y (i_cs dst) (q_of (px x y)), doc_cb (i_cs dst) area, doc_cr (i_cs dst) area).
Proof.
  intros HS Rs Rd N' x y Hx Hy px area.
  pose proof (c16_forward _ _ _ _ _ _ _ _ _ HS Rs Rd x y Hx Hy) as H. cbv zeta in H. fold px in H. fold area in H.
  pose proof (success_bytes _ _ _ _ _ _ _ _ _ x y HS) as B.
  pose proof (area_bytes _ _ _ _ _ _ _ _ _ (i_pf dst) x y HS) as BA. fold px in B, BA.
  destruct (ycc_space _ _ _ _ _ _ _ _ _ HS) as [_ N]. specialize (N Rd).
  unfold area in *. clear area. destruct (chroma_area (i_pf dst) px x y) as [n [[r g] b]]. cbn [fst snd] in *.
  destruct (px x y) as [[r0 g0] b0]. destruct BA as (Hn & Hr & Hg & Hb).
  destruct (doc_forward_close (i_cs dst) (inject_Z r0) (inject_Z g0) (inject_Z b0) N N') as (D1 & _ & _);
    try (apply byte_range; lia).
  destruct (doc_forward_close (i_cs dst) (inject_Z r / inject_Z n) (inject_Z g / inject_Z n) (inject_Z b / inject_Z n) N N')
    as (_ & D2 & D3); try (apply average_range; assumption).
  destruct (pixel dst w h (dsts m') x y) as [[l cb] cr]. unfold all_near, q_of, q_average in *.
  destruct H as (H1 & H2 & H3).
  split; [|split]; (eapply near_le; [eapply near_trans; eassumption|]); discriminate.
Qed.

Lemma doc_inverse set T w h src dst sb db m' : successful_call (converters set) T w h src dst sb db m' ->
  is_rgb (i_pf src) = false -> is_rgb (i_pf dst) = true ->
  forall x y, 0 <= x < w -> 0 <= y < h -> saturates set (i_cs src) (pixel src w h sb x y) ->
  let '(l, cb, cr) := pixel src w h sb x y in
  all_near (doc_rgb_error (i_cs src)) (pixel dst w h (dsts m') x y)
    (q_clamp_rgb (doc_rgb (i_cs src) (inject_Z l) (inject_Z cb) (inject_Z cr))).
Proof.
  intros HS Rs Rd x y Hx Hy HF.
  pose proof (c16_inverse _ _ _ _ _ _ _ _ _ HS Rs Rd x y Hx Hy HF) as H.
  pose proof (success_bytes _ _ _ _ _ _ _ _ _ x y HS) as B.
  destruct (ycc_space _ _ _ _ _ _ _ _ _ HS) as [N _]. specialize (N Rs).
  destruct (pixel src w h sb x y) as [[l cb] cr].
  pose proof (doc_inverse_close (i_cs src) (inject_Z l) (inject_Z cb) (inject_Z cr) N) as D.
  destruct (pixel dst w h (dsts m') x y) as [[r g] b].
  destruct (exact_rgb _ _ _ _) as [[er eg] eb], (doc_rgb _ _ _ _) as [[dr dg] db'].
  destruct D as (D1 & D2 & D3); try (apply byte_range; lia).
  unfold q_clamp_rgb, all_near in *. destruct H as (H1 & H2 & H3).
  split; [|split]; (eapply near_le; [eapply near_trans; [eassumption|apply clamp_close; eassumption]|]); lra.
Qed.
