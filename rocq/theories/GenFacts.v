(** Facts behind the theorems on the script that generates the constants. *)
From Coq Require Import ZArith List Bool Lia.
Import ListNotations.
From Verif Require Import Base Fmt Common Wrappers CpuInfo Lib Sets Exec Spec SimdSpec SetSpec ApiSpec Api PixelFacts PropFacts
  Itu PixelSpec ItuFacts PixelProps PixelApi GenSpec GenError.
From Verif Require GenWeights.
Open Scope Z_scope.
Import GenWeights.

Lemma script_601 b : script_with b M601 false = constants C601.
Proof. vm_compute. reflexivity. Qed.
Lemma script_709 b : script_with b M709 false = constants C709.
Proof. vm_compute. reflexivity. Qed.

(** The same constants with other chroma weights of red and green. *)
Definition with_chroma (c : colorimetry) (yr yg : Z) : list Z :=
  [XR c; XG c; XB c; yr; yg; ZG c; XXYM c; RCRM c; GCRM c; GCBM c; BCBM c; RN c; GP c; BN c].

Lemma script_601FR b : script_with b M601 true =
  if b (-11058) (-21710) (-27439) 1 then with_chroma C601FR (-11057) (-21710) else constants C601FR.
Proof. vm_compute. destruct (b (-11058) (-21710) (-27439) 1); reflexivity. Qed.
Lemma script_709FR b : script_with b M709 true =
  if b (-7509) (-25259) (-29763) 1 then constants C709FR else with_chroma C709FR (-7509) (-25258).
Proof. vm_compute. destruct (b (-7509) (-25259) (-29763) 1); reflexivity. Qed.

Lemma c53_limited : script M601 false = constants C601 /\ script M709 false = constants C709.
Proof. split; [exact (script_601 (first_better (forward_coefs M601 false)))|exact (script_709 (first_better (forward_coefs M709 false)))]. Qed.
Lemma c53_full : script M601 true = constants C601FR /\ script M709 true = constants C709FR.
Proof.
  unfold script. rewrite script_601FR, script_709FR. fold f601 f709. rewrite choice_601, choice_709. split; reflexivity.
Qed.

(** ** Reference data *)

Lemma y_entry cs r g b : cs <> CsRgb ->
  Z.shiftr (xr (printed_for cs) * r + xg (printed_for cs) * g + xb (printed_for cs) * b + y_shift (negb (limited cs))) 16 =
  luma cs (r, g, b).
Proof.
  intros N. rewrite Z.shiftr_div_pow2 by lia. change (2 ^ 16) with 65536. unfold luma, round_up. change (2 * 65536) with 131072.
  destruct cs; try congruence; cbn [printed_for colorimetry_of xr xg xb XR XG XB y_weights y_min dot limited negb];
    match goal with |- context [y_shift ?f] => let v := eval vm_compute in (y_shift f) in change (y_shift f) with v end;
    match goal with |- ?a / 65536 = _ + ?b / 131072 => pose proof (floor_bounds a 65536 eq_refl); pose proof (floor_bounds b 131072 eq_refl);
      set (q := a / 65536) in *; set (q' := b / 131072) in *; clearbody q q'; lia end.
Qed.

(** Sums of one or four pixels. *)
Lemma chroma_entry n k s p : n = 1 /\ s = 8421375 \/ n = 4 /\ s = 33685503 ->
  (dot k p + s) / (n * 65536) = chroma false k n p.
Proof.
  intros H. unfold chroma, round_down, round_up. generalize (dot k p). intros d.
  destruct H as [[-> ->]|[-> ->]]; [change (1 * 65536) with 65536; change (2 * 65536) with 131072|
    change (4 * 65536) with 262144; change (2 * 262144) with 524288];
  match goal with |- ?a / ?m = _ + - (?b / ?m') => pose proof (floor_bounds a m eq_refl); pose proof (floor_bounds b m' eq_refl);
      set (q := a / m) in *; set (q' := b / m') in *; clearbody q q'; lia end.
Qed.

Lemma weights_printed cs : cs <> CsRgb -> let p := printed_for cs in
  cb_weights cs = (yr p, yg p, yb p) /\ cr_weights cs = (zr p, zg p, zb p).
Proof. destruct cs; intros; try congruence; split; reflexivity. Qed.

Lemma nth_map0 (f : rgba -> Z) row i : (i < length row)%nat -> nth i (map f row) 0 = f (nth i row (0, 0, 0, 0)).
Proof. intros H. rewrite (nth_indep _ 0 (f (0, 0, 0, 0))) by (rewrite map_length; exact H). apply map_nth. Qed.
Lemma row_length rows w h y : table_size rows w h -> 0 <= y < h -> Z.of_nat (length (nth (Z.to_nat y) rows [])) = w.
Proof. intros [L F] Hy. rewrite Forall_forall in F. apply F, nth_In. lia. Qed.

Lemma block_table rows w h px x y : table_of rows w h px -> w mod 2 = 0 -> h mod 2 = 0 -> 0 <= x < w -> 0 <= y < h ->
  let j := Z.to_nat (y / 2) in let i := Z.to_nat (x / 2) in
  block_sum px (x / 2) (y / 2) = (block red rows j i, block green rows j i, block blue rows j i).
Proof.
  intros HT Mw Mh Hx Hy j i. unfold block_sum, block.
  pose proof (Z.div_mod w 2 ltac:(lia)). pose proof (Z.div_mod h 2 ltac:(lia)).
  pose proof (floor_bounds x 2 eq_refl). pose proof (floor_bounds y 2 eq_refl).
  rewrite !HT by lia.
  replace (Z.to_nat (2 * (x / 2))) with (2 * i)%nat by (unfold i; lia).
  replace (Z.to_nat (2 * (x / 2) + 1)) with (2 * i + 1)%nat by (unfold i; lia).
  replace (Z.to_nat (2 * (y / 2))) with (2 * j)%nat by (unfold j; lia).
  replace (Z.to_nat (2 * (y / 2) + 1)) with (2 * j + 1)%nat by (unfold j; lia).
  destruct (src_at rows (2 * j) (2 * i)) as [[[r0 g0] b0] a0], (src_at rows (2 * j) (2 * i + 1)) as [[[r1 g1] b1] a1],
    (src_at rows (2 * j + 1) (2 * i)) as [[[r2 g2] b2] a2], (src_at rows (2 * j + 1) (2 * i + 1)) as [[[r3 g3] b3] a3].
  unfold add_rgb, red, green, blue. apply (f_equal2 pair); [apply (f_equal2 pair)|]; lia.
Qed.


Lemma not_tied set w x k n p : (set = Neon -> ~ tie k n p) -> n = 1 \/ n = 4 -> chroma (up_at set w x) k n p = chroma false k n p.
Proof.
  intros NT Hn. unfold up_at. destruct set; try reflexivity. destruct (x <? 8 * (w / 8)); [|reflexivity].
  unfold chroma. destruct (round_tie (dot k p) (n * 65536) ltac:(lia)) as [H|[_ H]]; [rewrite H; reflexivity|].
  exfalso. exact (NT eq_refl H).
Qed.

Lemma c53_tables set T w h src dst sb db m' rows :
  successful_call (converters set) T w h src dst sb db m' ->
  is_rgb (i_pf src) = true -> is_rgb (i_pf dst) = false ->
  table_size rows w h -> table_of rows w h (pixel src w h sb) ->
  (set = Neon -> no_ties (i_pf dst) (i_cs dst) w h (pixel src w h sb)) ->
  let p := printed_for (i_cs dst) in
  forall x y, 0 <= x < w -> 0 <= y < h ->
  let i := Z.to_nat x in let row := nth (Z.to_nat y) rows [] in
  let '(l, cb, cr) := pixel dst w h (dsts m') x y in
  l = nth i (y_row p (negb (limited (i_cs dst))) row) 0 /\
  match i_pf dst with
  | I444 => cb = nth i (u_row p row) 0 /\ cr = nth i (v_row p row) 0
  | _ => cb = u2_at p rows (Z.to_nat (y / 2)) (Z.to_nat (x / 2)) /\ cr = v2_at p rows (Z.to_nat (y / 2)) (Z.to_nat (x / 2))
  end.
Proof.
  intros HS Rs Rd TS HT NT p x y Hx Hy i row.
  rewrite (result_ycc _ _ _ _ _ _ _ _ _ HS Rs Rd x y Hx Hy). cbv zeta.
  assert (NT' : set = Neon -> let '(n, c) := chroma_area (i_pf dst) (pixel src w h sb) x y in ~ tie (cb_weights (i_cs dst)) n c /\ ~ tie (cr_weights (i_cs dst)) n c)
    by (intros E; exact (NT E x y Hx Hy)).
  destruct (ycc_space _ _ _ _ _ _ _ _ _ HS) as [_ N]. specialize (N Rd).
  destruct (success_valid _ _ _ _ _ _ _ _ _ HS) as (_ & (_ & _ & Zd) & Sup).
  pose proof (row_length _ _ _ y TS Hy) as RL. fold row in RL.
  assert (Hi : (i < length row)%nat) by (unfold i; lia).
  destruct (weights_printed _ N) as [WB WR]. fold p in WB, WR.
  pose proof (HT x y Hx Hy) as EP. unfold src_at in EP. fold row i in EP.
  assert (EL : luma (i_cs dst) (pixel src w h sb x y) = nth i (y_row p (negb (limited (i_cs dst))) row) 0).
  { unfold y_row. rewrite nth_map0 by exact Hi. rewrite EP. destruct (nth i row (0, 0, 0, 0)) as [[[r g] b] a].
    symmetry. apply y_entry, N. }
  assert (DI : i_pf dst = I444 \/ i_pf dst <> I444) by (destruct (i_pf dst); auto; right; discriminate).
  destruct DI as [EI|NI].
  - rewrite EI in *. cbn [chroma_area] in *. split; [exact EL|]. rewrite !(not_tied set) by (auto; intros E; apply (NT' E)).
    unfold u_row, v_row. rewrite !nth_map0 by exact Hi. rewrite EP. destruct (nth i row (0, 0, 0, 0)) as [[[r g] b] a].
    rewrite <- !(chroma_entry 1 _ uv_shift) by auto. rewrite WB, WR. cbn [dot].
    rewrite !Z.shiftr_div_pow2 by (cbv; discriminate). split; reflexivity.
  - assert (EA : chroma_area (i_pf dst) (pixel src w h sb) x y = (4, block_sum (pixel src w h sb) (x / 2) (y / 2)))
      by (destruct (i_pf dst); try reflexivity; congruence).
    rewrite EA in *. split; [exact EL|]. rewrite !(not_tied set) by (auto; intros E; apply (NT' E)).
    assert (MM : w mod 2 = 0 /\ h mod 2 = 0).
    { clear - Zd Sup Rs Rd NI. destruct (i_pf dst); try discriminate Rd; try congruence; try exact Zd.
      destruct (i_pf src); discriminate. }
    rewrite (block_table rows w h) by tauto.
    rewrite <- !(chroma_entry 4 _ uv2_shift) by auto. rewrite WB, WR. cbn [dot]. unfold u2_at, v2_at.
    rewrite !Z.shiftr_div_pow2 by (cbv; discriminate).
    destruct (i_pf dst); try congruence; split; reflexivity.
Qed.

(** The script's own table has no ties. *)
Definition src_px (x y : Z) : rgb := let '(r, g, b, _) := src_at RGB_SRC (Z.to_nat y) (Z.to_nat x) in (r, g, b).
Definition tied (k : Z * Z * Z) (n : Z) (p : rgb) : bool := (2 * dot k p) mod (2 * (n * 65536)) =? n * 65536.
Definition zs8 : list Z := [0; 1; 2; 3; 4; 5; 6; 7].
Lemma src_ties : forallb (fun cs => forallb (fun pf => forallb (fun y => forallb (fun x =>
  let '(n, p) := chroma_area pf src_px x y in negb (tied (cb_weights cs) n p) && negb (tied (cr_weights cs) n p)) zs8) zs8) [I444; I420])
  [Bt601; Bt709; Bt601FR; Bt709FR] = true.
Proof. vm_compute. reflexivity. Qed.
Lemma in_zs8 x : 0 <= x < 8 -> In x zs8.
Proof. intros H. unfold zs8. cbn [In]. lia. Qed.
Lemma src_not_tied pf cs x y : cs <> CsRgb -> 0 <= x < 8 -> 0 <= y < 8 -> pf = I444 \/ pf = I420 ->
  let '(n, p) := chroma_area pf src_px x y in ~ tie (cb_weights cs) n p /\ ~ tie (cr_weights cs) n p.
Proof.
  intros N Hx Hy HP. pose proof src_ties as S. rewrite forallb_forall in S.
  specialize (S cs ltac:(destruct cs; cbn; tauto)). cbv beta in S. rewrite forallb_forall in S.
  specialize (S pf ltac:(destruct HP as [-> | ->]; cbn; tauto)). cbv beta in S. rewrite forallb_forall in S.
  specialize (S y (in_zs8 y Hy)). cbv beta in S. rewrite forallb_forall in S. specialize (S x (in_zs8 x Hx)). cbv beta in S.
  destruct (chroma_area pf src_px x y) as [n p]. apply andb_prop in S as [S1 S2].
  apply negb_true_iff in S1, S2. apply Z.eqb_neq in S1, S2. split; assumption.
Qed.
Lemma block_sum_ext px px' i j : 0 <= i < 4 -> 0 <= j < 4 -> (forall x y, 0 <= x < 8 -> 0 <= y < 8 -> px x y = px' x y) ->
  block_sum px i j = block_sum px' i j.
Proof. intros Hi Hj E. unfold block_sum. rewrite !E by lia. reflexivity. Qed.
Lemma src_no_ties pf cs px : cs <> CsRgb -> table_of RGB_SRC 8 8 px -> no_ties pf cs 8 8 px.
Proof.
  intros N HT x y Hx Hy. assert (E : forall x y, 0 <= x < 8 -> 0 <= y < 8 -> px x y = src_px x y) by (intros; apply HT; assumption).
  assert (DI : pf = I444 \/ pf <> I444) by (destruct pf; auto; right; discriminate).
  destruct DI as [->|NI].
  - cbn [chroma_area]. rewrite E by assumption. exact (src_not_tied I444 cs x y N Hx Hy (or_introl eq_refl)).
  - replace (chroma_area pf px x y) with (chroma_area I420 src_px x y); [exact (src_not_tied I420 cs x y N Hx Hy (or_intror eq_refl))|].
    assert (Q : 0 <= x / 2 < 4 /\ 0 <= y / 2 < 4) by (clear - Hx Hy; Z.div_mod_to_equations; lia).
    destruct pf; try congruence; cbn [chroma_area]; rewrite (block_sum_ext px src_px) by tauto; reflexivity.
Qed.
Lemma src_size : table_size RGB_SRC 8 8.
Proof. split; [reflexivity|repeat constructor]. Qed.

Lemma c53_reference set T src dst sb db m' :
  successful_call (converters set) T 8 8 src dst sb db m' ->
  is_rgb (i_pf src) = true -> is_rgb (i_pf dst) = false -> table_of RGB_SRC 8 8 (pixel src 8 8 sb) ->
  let p := printed_for (i_cs dst) in
  forall x y, 0 <= x < 8 -> 0 <= y < 8 ->
  let i := Z.to_nat x in let row := nth (Z.to_nat y) RGB_SRC [] in
  let '(l, cb, cr) := pixel dst 8 8 (dsts m') x y in
  l = nth i (y_row p (negb (limited (i_cs dst))) row) 0 /\
  match i_pf dst with
  | I444 => cb = nth i (u_row p row) 0 /\ cr = nth i (v_row p row) 0
  | _ => cb = u2_at p RGB_SRC (Z.to_nat (y / 2)) (Z.to_nat (x / 2)) /\ cr = v2_at p RGB_SRC (Z.to_nat (y / 2)) (Z.to_nat (x / 2))
  end.
Proof.
  intros HS Rs Rd HT. destruct (ycc_space _ _ _ _ _ _ _ _ _ HS) as [_ N]. specialize (N Rd).
  exact (c53_tables set T 8 8 src dst sb db m' RGB_SRC HS Rs Rd src_size HT (fun _ => src_no_ties _ _ _ N HT)).
Qed.
