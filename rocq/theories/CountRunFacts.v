(** A conversion makes no more writes than the destination image has bytes, so none twice. *)
From Coq Require Import ZArith List Bool Lia ZifyBool ZifyNat.
Import ListNotations.
From Verif Require Import Base Fmt Dispatch Common Wrappers CpuInfo Lib Sets Spec SetSpec ApiSpec Api LibFacts PropFacts
  Trace TraceSpec TraceRunFacts WriteSpec CountFacts TwiceFacts.
Open Scope Z_scope.
Ltac Zify.zify_post_hook ::= Z.div_mod_to_equations.

(** ** Calls *)
Lemma conv_bytes_nonneg c w h : 0 <= w -> 0 <= h -> 0 <= conv_bytes c w h.
Proof.
  intros W H. assert (0 <= h / 2) by lia. assert (D : forall d, 0 <= pf_depth d) by (intros []; cbn; lia).
  destruct c as [s d|s d cs|s cs d]; cbn [conv_bytes]; try (specialize (D d); nia).
  destruct d; rewrite ?Z.div_1_r; nia.
Qed.
Lemma counts_index {A} T (l : list A) i : counts T (index l i) 0 (fun a => nth_error l (Z.to_nat i) = Some a).
Proof. unfold index. destruct (_ && _); [|exact I]. destruct (nth_error _ _) eqn:E; [apply counts_ret; reflexivity|exact I]. Qed.
Lemma counts_index_any {A} T (l : list A) i : counts T (index l i) 0 any.
Proof. eapply counts_mono; [apply counts_index|lia|intros; exact I]. Qed.
Lemma counts_compatible T a b c d : counts T (is_compatible a b c d) 0 any.
Proof. unfold is_compatible. apply counts_zero; [apply counts_index_any|intros ?]. apply counts_ret. exact I. Qed.
Lemma counts_planes T a b : counts T (are_planes_compatible a b) 0 any.
Proof. unfold are_planes_compatible. cbv zeta. apply counts_zero; [apply counts_index_any|intros ?]. apply counts_ret. exact I. Qed.
Lemma fits_all T set spf dpf scs dcs : 2 ^ 32 <= usz T -> supported spf dpf = true -> fits T set (conv_of spf dpf scs dcs).
Proof. intros U S. destruct set; [apply fits_x86|apply fits_sse2|apply fits_avx2|apply fits_neon]; auto. Qed.
Lemma same_converter set src dst : ~ overlapping set src dst -> forall scs dcs,
  converters_once set (conv_of (i_pf src) (i_pf dst) scs dcs) = converters set (conv_of (i_pf src) (i_pf dst) scs dcs).
Proof.
  intros N scs dcs. unfold overlapping in N. destruct set; try reflexivity.
  destruct (i_pf src), (i_pf dst); lazymatch goal with
  | |- context [conv_of Nv12 Rgb _ _] => contradiction N; auto
  | _ => reflexivity
  end.
Qed.
Definition conv_size (src dst : image) (w h : Z) := conv_bytes (conv_of (i_pf src) (i_pf dst) (i_cs src) (i_cs dst)) w h.
Definition fitting (T : target) (impl : conv -> converter) (src dst : image) (w h : Z) := supported (i_pf src) (i_pf dst) = true ->
  forall l ss sb l' ds db, counts T (impl (conv_of (i_pf src) (i_pf dst) (i_cs src) (i_cs dst)) w h l ss sb l' ds db) (conv_size src dst w h) any.
Lemma fitting_once T set src dst w h : 2 ^ 32 <= usz T -> 0 <= w < 2 ^ 32 -> 0 <= h -> fitting T (converters_once set) src dst w h.
Proof. intros U W H S l ss sb l' ds db. exact (fits_all T set _ _ _ _ U S w h l ss sb l' ds db W H). Qed.
Lemma fitting_code T set src dst w h : 2 ^ 32 <= usz T -> 0 <= w < 2 ^ 32 -> 0 <= h -> ~ overlapping set src dst -> fitting T (converters set) src dst w h.
Proof. intros U W H N S l ss sb l' ds db. rewrite <- (same_converter set src dst N). apply fitting_once; assumption. Qed.
Lemma counts_convert T impl w h src dst ss sb ds db : 0 <= w < 2 ^ 32 -> 0 <= h -> fitting T impl src dst w h ->
  counts T (convert_image impl w h (format_of src) ss sb (format_of dst) ds db) (conv_size src dst w h) any.
Proof.
  intros W H N. pose proof (conv_bytes_nonneg (conv_of (i_pf src) (i_pf dst) (i_cs src) (i_cs dst)) w h ltac:(lia) H) as Nn.
  unfold fitting, conv_size in *. set (B := conv_bytes _ _ _) in *.
  unfold convert_image, format_of, image_format_of. cbn [f_pf f_cs f_planes]. cbv zeta. rewrite !modes_ok.
  destruct (colors_b (i_pf src) (i_cs src)) eqn:Cs; cbn [negb orb]; [|apply counts_retn; exact Nn].
  destruct (colors_b (i_pf dst) (i_cs dst)) eqn:Cd; cbn [negb]; [|apply counts_retn; exact Nn].
  apply counts_zero; [apply counts_compatible|intros []; cbn [negb]; [|apply counts_retn; exact Nn]].
  apply counts_zero; [apply counts_compatible|intros []; cbn [negb]; [|apply counts_retn; exact Nn]].
  destruct (_ <=? _); [apply counts_retn; exact Nn|].
  pose proof (entry_all (i_pf src) (i_cs src) (i_pf dst) (i_cs dst)) as E.
  unfold entry_ok in E. rewrite Cs, Cd in E. cbn [andb negb orb] in E.
  fold (img_index (i_pf src) (i_cs src)) (img_index (i_pf dst) (i_cs dst)).
  set (i := get_index (img_index (i_pf src) (i_cs src)) (img_index (i_pf dst) (i_cs dst))) in *. cbv zeta in E.
  eapply counts_le; [eapply counts_then; [apply counts_index|]|apply (Z.le_refl (0 + B))].
  intros r Er. cbv beta in Er. rewrite Er in E. destruct r as [c|]; [|apply counts_retn; exact Nn].
  rewrite !andb_true_iff in E. destruct E as (((_ & _) & E3) & E4). apply conv_eqb_ok in E4. subst c.
  eapply counts_le; [eapply counts_bind; [apply N; exact E3|intros ?; apply counts_ret; exact I]|].
  fold B. lia.
Qed.
Lemma counts_c_planes T mk ptrs n : forall i l, counts T (c_planes mk ptrs i n l) 0 any.
Proof.
  induction n as [|n IH]; intros i l; cbn [c_planes]; [apply counts_ret; exact I|].
  destruct (nth_error ptrs i) as [[|]|]; [|apply counts_ret; exact I|exact I]. apply IH.
Qed.
Lemma counts_dcp T impl w h src dst ss sp ds dp e : 0 <= w < 2 ^ 32 -> 0 <= h -> fitting T impl src dst w h ->
  counts T (dcp_convert_image impl w h (Some (format_of src)) ss sp (Some (format_of dst)) ds dp e) (conv_size src dst w h) any.
Proof.
  intros W H N. pose proof (conv_bytes_nonneg (conv_of (i_pf src) (i_pf dst) (i_cs src) (i_cs dst)) w h ltac:(lia) H) as Nn. fold (conv_size src dst w h) in Nn.
  unfold dcp_convert_image. destruct sp as [sp|], dp as [dp|]; try (apply counts_retn; exact Nn).
  destruct (_ || _); [apply counts_retn; exact Nn|].
  apply counts_zero.
  { apply counts_orM; (apply counts_zero; [apply counts_planes|intros ?; apply counts_ret; exact I]). }
  intros []; [apply counts_retn; exact Nn|].
  apply counts_zero; [apply counts_c_planes|intros [sl|]; [|apply counts_retn; exact Nn]].
  apply counts_zero; [apply counts_c_planes|intros [dl|]; [|apply counts_retn; exact Nn]].
  eapply counts_le; [eapply counts_bind with (n' := 0); [exact (counts_convert T impl w h src dst _ _ _ _ W H N)|intros []; apply counts_ret; exact I]|lia].
Qed.

(** ** The bytes of the image *)
Fixpoint cells_row (n : nat) (base : Z) (len : nat) : list (nat * Z) :=
  match len with O => [] | S k => (n, base + Z.of_nat k) :: cells_row n base k end.
Fixpoint cells_plane (n : nat) (base stride : Z) (len rows : nat) : list (nat * Z) :=
  match rows with O => [] | S k => cells_row n (base + Z.of_nat k * stride) len ++ cells_plane n base stride len k end.
Definition cells_geom (g : geom) : list (nat * Z) := cells_plane (g_buf g) (g_base g) (g_stride g) (Z.to_nat (g_row g)) (Z.to_nat (g_rows g)).
Definition cells (l : list geom) : list (nat * Z) := flat_map cells_geom l.

Lemma NoDup_app_iff {A} (l l' : list A) : NoDup l -> NoDup l' -> (forall x, In x l -> In x l' -> False) -> NoDup (l ++ l').
Proof.
  intros N N' D. induction N as [|a l Ha N IH]; [exact N'|]. cbn [app]. constructor.
  - rewrite in_app_iff. intros [I|I]; [exact (Ha I)|]. exact (D a (or_introl eq_refl) I).
  - apply IH. intros x I. apply D. right. exact I.
Qed.
Lemma in_cells_row n b len p a : In (p, a) (cells_row n b len) <-> p = n /\ b <= a < b + Z.of_nat len.
Proof.
  induction len as [|k IH]; [cbn [cells_row In]; lia|]. cbn [cells_row In]. rewrite IH. split.
  - intros [E|E]; [injection E as <- <-; lia|lia].
  - intros [-> E]. destruct (Z.eq_dec a (b + Z.of_nat k)) as [->|]; [left; reflexivity|right; lia].
Qed.
Lemma in_cells_plane n b s len rows p a : In (p, a) (cells_plane n b s len rows) <->
  p = n /\ exists y j, 0 <= y < Z.of_nat rows /\ 0 <= j < Z.of_nat len /\ a = b + y * s + j.
Proof.
  induction rows as [|k IH]; [cbn [cells_plane In]; split; [tauto|intros (_ & y & j & H & _); lia]|].
  cbn [cells_plane]. rewrite in_app_iff, IH, in_cells_row. split.
  - intros [[-> E]|[-> (y & j & Y & J & E)]]; (split; [reflexivity|]).
    + exists (Z.of_nat k), (a - (b + Z.of_nat k * s)). lia.
    + exists y, j. lia.
  - intros (-> & y & j & Y & J & E). destruct (Z.eq_dec y (Z.of_nat k)) as [->|]; [left; lia|].
    right. split; [reflexivity|]. exists y, j. lia.
Qed.
Lemma nodup_row n b len : NoDup (cells_row n b len).
Proof.
  induction len as [|k IH]; [constructor|]. cbn [cells_row]. constructor; [|exact IH]. rewrite in_cells_row. lia.
Qed.
Lemma nodup_plane n b s len rows : Z.of_nat len <= s -> NoDup (cells_plane n b s len rows).
Proof.
  intros L. induction rows as [|k IH]; [constructor|]. cbn [cells_plane]. apply NoDup_app_iff; [apply nodup_row|exact IH|].
  intros [p a] I1 I2. apply in_cells_row in I1. apply in_cells_plane in I2. destruct I1 as [_ I1], I2 as (_ & y & j & Y & J & ->). nia.
Qed.
Lemma length_row n b len : length (cells_row n b len) = len.
Proof. induction len as [|k IH]; [reflexivity|]. cbn [cells_row length]. rewrite IH. reflexivity. Qed.
Lemma length_plane n b s len rows : length (cells_plane n b s len rows) = (rows * len)%nat.
Proof. induction rows as [|k IH]; [reflexivity|]. cbn [cells_plane]. rewrite app_length, length_row, IH. reflexivity. Qed.
Lemma in_cells im w h n a : In (n, a) (cells (image_planes im w h)) <-> in_image im w h n a.
Proof.
  unfold cells, in_image. rewrite in_flat_map. split.
  - intros (g & G & E). apply in_cells_plane in E. destruct E as (-> & y & j & Y & J & ->). exists g, y, j. repeat split; auto; lia.
  - intros (g & y & j & G & -> & Y & J & ->). exists g. split; [exact G|]. apply in_cells_plane. split; [reflexivity|]. exists y, j. lia.
Qed.
Lemma nodup_cells im w h : 0 < w -> 0 < h -> rows_apart im w h -> NoDup (cells (image_planes im w h)).
Proof.
  intros W H R. unfold rows_apart in R.
  assert (G : forall g, In g (image_planes im w h) -> NoDup (cells_geom g)).
  { intros g I. apply nodup_plane. pose proof (proj1 (Forall_forall _ _) R g I) as Q. cbv beta in Q.
    assert (0 <= g_row g); [|lia].
    unfold image_planes, planes in I. destruct (i_pf im); cbn [bytes_per_pixel] in I; try destruct (_ =? _); cbn [In] in I;
      repeat destruct I as [I|I]; try contradiction I; subst g; cbn [g_row]; lia. }
  assert (D : forall g g' p a, g_buf g <> g_buf g' -> In (p, a) (cells_geom g) -> In (p, a) (cells_geom g') -> False).
  { intros g g' p a N I1 I2. apply in_cells_plane in I1, I2. destruct I1 as [-> _], I2 as [E _]. exact (N E). }
  unfold image_planes, planes in *.
  assert (N1 : forall g, In g [g] -> NoDup (cells_geom g) -> NoDup (cells [g])) by (intros g _ N; cbn [cells flat_map]; rewrite app_nil_r; exact N).
  assert (N3 : forall g g' g'', NoDup (cells_geom g) -> NoDup (cells_geom g') -> NoDup (cells_geom g'') ->
    g_buf g <> g_buf g' -> g_buf g <> g_buf g'' -> g_buf g' <> g_buf g'' -> NoDup (cells [g; g'; g''])).
  { intros g g' g'' A A' A'' E1 E2 E3. unfold cells. cbn [flat_map]. rewrite app_nil_r.
    apply NoDup_app_iff; [exact A| |intros [p a] I1 I2; apply in_app_iff in I2; destruct I2 as [I2|I2]; [exact (D g g' p a E1 I1 I2)|exact (D g g'' p a E2 I1 I2)]].
    apply NoDup_app_iff; [exact A'|exact A''|intros [p a] I1 I2; exact (D g' g'' p a E3 I1 I2)]. }
  assert (N2 : forall g g', NoDup (cells_geom g) -> NoDup (cells_geom g') -> (forall p a, In (p, a) (cells_geom g) -> In (p, a) (cells_geom g') -> False) ->
    NoDup (cells [g; g'])).
  { intros g g' A A' E. unfold cells. cbn [flat_map]. rewrite app_nil_r. apply NoDup_app_iff; [exact A|exact A'|intros [p a]; apply E]. }
  destruct (i_pf im); cbv zeta in *; try (apply N1; [left; reflexivity|apply G; left; reflexivity]);
    try (apply N3; try discriminate; apply G; cbn [In]; auto).
  destruct (_ =? _) eqn:E; (apply N2; [apply G; cbn [In]; auto|apply G; cbn [In]; auto|intros p a I1 I2]).
  - apply in_cells_plane in I1, I2. cbn [g_buf g_base g_stride g_row g_rows] in *. inversion R as [|? ? R1 _]; subst. cbn [g_row g_stride] in R1.
    destruct I1 as (_ & y & j & Y & J & ->), I2 as (_ & y' & j' & Y' & J' & E'). nia.
  - refine (D _ _ p a _ I1 I2). discriminate.
Qed.
Lemma length_cells im w h : 0 < w -> 0 < h -> Z.of_nat (length (cells (image_planes im w h))) = image_bytes im w h.
Proof.
  intros W H. unfold image_bytes.
  assert (G : forall g, In g (image_planes im w h) -> 0 <= g_rows g /\ 0 <= g_row g).
  { intros g I. unfold image_planes, planes in I. destruct (i_pf im); cbn [bytes_per_pixel] in I; try destruct (_ =? _); cbn [In] in I;
      repeat destruct I as [I|I]; try contradiction I; subst g; cbn [g_row g_rows]; lia. }
  induction (image_planes im w h) as [|g l IH]; [reflexivity|]. cbn [cells flat_map fold_right]. rewrite app_length, Nat2Z.inj_add.
  change (flat_map cells_geom l) with (cells l). rewrite IH by (intros g' I; apply G; right; exact I). f_equal.
  unfold cells_geom. rewrite length_plane. destruct (G g (or_introl eq_refl)). nia.
Qed.
Lemma size_of_image src dst w h : valid_image dst w h -> supported (i_pf src) (i_pf dst) = true -> 0 < w -> 0 < h ->
  conv_size src dst w h = image_bytes dst w h.
Proof.
  intros (_ & _ & V) S W H. unfold conv_size, image_bytes, image_planes, planes.
  destruct (i_pf src), (i_pf dst); try discriminate S; cbn [conv_of is_rgb conv_bytes pf_depth bytes_per_pixel valid_size] in *;
    try destruct (_ =? _); cbn [fold_right g_row g_rows]; rewrite ?Z.div_1_r; try ring.
  all: destruct V as [V1 V2]; assert (E1 : w = 2 * (w / 2)) by lia; assert (E2 : h = 2 * (h / 2)) by lia;
    rewrite E1 at 1; try rewrite E1 at 2; try rewrite E2 at 2.
  all: try nia.
Qed.

(** ** Every byte once *)
Definition written (l : list access) : list (nat * Z) :=
  flat_map (fun x => match x with Writes (Dst n) a _ => [(n, a)] | _ => [] end) l.
Definition place_dec (x y : nat * Z) : {x = y} + {x <> y}.
Proof. decide equality; [apply Z.eq_dec|apply PeanoNat.Nat.eq_dec]. Defined.
Lemma times_count l n a : times_written l n a = count_occ place_dec (written l) (n, a).
Proof.
  unfold times_written. induction l as [|x l IH]; [reflexivity|]. cbn [filter written flat_map].
  destruct x as [p b|[k|k] b v]; cbn [app]; try exact IH. cbn [count_occ]. fold (written l).
  destruct (place_dec (k, b) (n, a)) as [E|E].
  - injection E as -> ->. rewrite PeanoNat.Nat.eqb_refl, Z.eqb_refl. cbn [andb length]. rewrite IH. reflexivity.
  - replace ((k =? n)%nat && (b =? a)) with false; [exact IH|]. symmetry. apply andb_false_iff.
    destruct (PeanoNat.Nat.eqb_spec k n); [right|left; reflexivity]. destruct (Z.eqb_spec b a); [congruence|reflexivity].
Qed.
Lemma in_written l n a : In (n, a) (written l) <-> exists v, In (Writes (Dst n) a v) l.
Proof.
  unfold written. rewrite in_flat_map. split.
  - intros (x & I & E). destruct x as [p b|[k|k] b v]; cbn [In] in E; try contradiction. destruct E as [E|[]]. injection E as -> ->. exists v. exact I.
  - intros [v I]. exists (Writes (Dst n) a v). split; [exact I|left; reflexivity].
Qed.
Lemma length_written l : Z.of_nat (length (written l)) <= bytes_written l.
Proof.
  unfold bytes_written. induction l as [|x l IH]; [cbn; lia|]. cbn [written flat_map filter]. fold (written l).
  destruct x as [p b|[k|k] b v]; cbn [app length]; lia.
Qed.
Lemma every_byte_once l im w h : 0 < w -> 0 < h -> rows_apart im w h ->
  (forall n a, (exists v, In (Writes (Dst n) a v) l) <-> in_image im w h n a) -> bytes_written l <= image_bytes im w h ->
  bytes_written l = image_bytes im w h /\
  (forall n a, in_image im w h n a -> times_written l n a = 1%nat) /\ (forall n a, ~ in_image im w h n a -> times_written l n a = 0%nat).
Proof.
  intros W H R X B. pose proof (nodup_cells im w h W H R) as N. pose proof (length_cells im w h W H) as L.
  pose proof (length_written l) as K.
  assert (I : incl (cells (image_planes im w h)) (written l)).
  { intros [n a] I. apply in_written, X, in_cells, I. }
  assert (ND : NoDup (written l)) by (apply (NoDup_incl_NoDup N); [lia|exact I]).
  pose proof (NoDup_incl_length N I) as M. split; [lia|]. split; intros n a Y; rewrite times_count.
  - apply NoDup_count_occ'; [exact ND|]. apply in_written, X, Y.
  - apply count_occ_not_In. rewrite in_written, X. exact Y.
Qed.
Lemma target_usz T : is_target T -> 2 ^ 32 <= usz T.
Proof. intros [[-> _]|[-> _]]; lia. Qed.
Lemma rust_once set T w h src dst sb db m : successful_call (converters set) T w h src dst sb db m -> ~ overlapping set src dst ->
  let l := accesses (converters set) T w h src dst sb db in
  bytes_written l = image_bytes dst w h /\
  (forall n a, in_image dst w h n a -> times_written l n a = 1%nat) /\ (forall n a, ~ in_image dst w h n a -> times_written l n a = 0%nat).
Proof.
  intros S N l. destruct (success_valid _ _ _ _ _ _ _ _ _ S) as (_ & V & Su).
  pose proof (written_exactly _ _ _ _ _ _ _ _ _ S) as X. destruct S as (HT & (Hw & Hh & _) & W & H & _ & [_ R] & E).
  apply every_byte_once; auto. rewrite <- (size_of_image src dst w h) by auto.
  assert (U : 0 < usz T) by (pose proof (target_usz T HT); lia).
  apply (proj1 (tally_sound T _ U _ _ _ _ (eq_trans (traced_run _ _ _) E) (counts_convert T (converters set) w h src dst _ _ _ _ Hw (Z.lt_le_incl _ _ H) (fitting_code T set src dst w h (target_usz T HT) Hw (Z.lt_le_incl _ _ H) N)))).
Qed.
Lemma c_once set T w h src dst sb db e : c_call set T w h src dst sb db -> ~ overlapping set src dst ->
  let l := c_accesses (converters set) T w h src dst sb db e in
  bytes_written l = image_bytes dst w h /\
  (forall n a, in_image dst w h n a -> times_written l n a = 1%nat) /\ (forall n a, ~ in_image dst w h n a -> times_written l n a = 0%nat).
Proof.
  intros S N l. pose proof (c_written_exactly _ _ _ _ _ _ _ _ e S) as X. destruct (c_call_runs _ _ _ _ _ _ _ _ e S) as (after & E & _).
  destruct S as (HT & (Hw & Hh & _) & W & H & _ & V & Su & _ & _ & _ & [_ R] & _).
  apply every_byte_once; auto. rewrite <- (size_of_image src dst w h) by auto.
  assert (U : 0 < usz T) by (pose proof (target_usz T HT); lia).
  apply (proj1 (tally_sound T _ U _ _ _ _ (eq_trans (traced_run _ _ _) E) (counts_dcp T (converters set) w h src dst _ _ _ _ e Hw (Z.lt_le_incl _ _ H) (fitting_code T set src dst w h (target_usz T HT) Hw (Z.lt_le_incl _ _ H) N)))).
Qed.

(** ** No third value *)
Definition one_value (l : list access) := forall n a v v', In (Writes (Dst n) a v) l -> In (Writes (Dst n) a v') l -> v = v'.
Lemma once_value l : (forall n a, (times_written l n a <= 1)%nat) -> one_value l.
Proof.
  induction l as [|x l IH]; intros K n a v v' I I'; [contradiction I|].
  assert (K' : forall n a, (times_written l n a <= 1)%nat).
  { intros k b. specialize (K k b). unfold times_written in *. cbn [filter] in K. destruct x as [|[|] ? ?]; try exact K. destruct (_ && _); [cbn [length] in K; lia|exact K]. }
  assert (D : forall u u', x = Writes (Dst n) a u -> In (Writes (Dst n) a u') l -> False).
  { intros u u' -> J. specialize (K n a). rewrite times_count in K. cbn [written flat_map app count_occ] in K. fold (written l) in K.
    destruct (place_dec (n, a) (n, a)) as [_|E]; [|apply E; reflexivity].
    assert (J' : In (n, a) (written l)) by (apply in_written; exists u'; exact J). apply (count_occ_In place_dec) in J'. lia. }
  destruct I as [-> |I], I' as [E|I'].
  - injection E as <-. reflexivity.
  - destruct (D v v' eq_refl I').
  - destruct (D v' v E I).
  - exact (IH K' n a v v' I I').
Qed.
Lemma same_value l l' : (forall x, In x l' <-> In x l) -> one_value l' -> one_value l.
Proof. intros E O n a v v' I I'. apply E in I, I'. exact (O _ _ _ _ I I'). Qed.
Lemma no_third {A} T (c : M A) m a0 m' : run c T m = Ok a0 m' -> one_value (fst (traced c T m)) ->
  forall l l', fst (traced c T m) = l ++ l' -> forall n a v, last_written l n a = Some v -> v = nth (Z.to_nat a) (nth n (dsts m') []) 0.
Proof.
  intros R O l l' E n a v V. destruct (traced_end T c m a0 m' R) as (_ & _ & Wr & _ & La).
  rewrite E in O, Wr, La. pose proof (last_in l n a v V) as I.
  assert (I' : In (Writes (Dst n) a v) (l ++ l')) by (apply in_or_app; left; exact I).
  assert (0 <= a) by (destruct (Wr _ _ _ I') as (k & _ & Q); lia).
  specialize (La n a H). destruct (last_written (l ++ l') n a) as [v'|] eqn:V'.
  - apply last_in in V'. rewrite (O n a v v' I' V'). symmetry. exact La.
  - destruct (in_last _ _ _ _ I') as [v' C]. congruence.
Qed.
Lemma rust_one_value set T w h src dst sb db m : successful_call (converters set) T w h src dst sb db m ->
  one_value (accesses (converters set) T w h src dst sb db).
Proof.
  intros S. destruct (success_valid _ _ _ _ _ _ _ _ _ S) as (_ & V & Su).
  pose proof (written_exactly _ _ _ _ _ _ _ _ _ S) as X. destruct S as (HT & (Hw & Hh & _) & W & H & _ & [_ R] & E).
  assert (U : 0 < usz T) by (pose proof (target_usz T HT); lia).
  unfold accesses in *. destruct (agree_convert T set _ _ _ _ _ _ _ _ _ _ _ E) as [E' Same].
  apply (same_value _ _ Same). apply once_value.
  assert (X' : forall n a, (exists v, In (Writes (Dst n) a v) (fst (traced (convert_image (converters_once set) w h (format_of src)
    (option_map arr_of (i_strides src)) (arr_of (rust_slices Src sb)) (format_of dst) (option_map arr_of (i_strides dst)) (arr_of (rust_slices Dst db))) T (Mem sb db)))) <-> in_image dst w h n a).
  { intros n a. rewrite <- X. split; intros [v I]; exists v; apply Same; exact I. }
  pose proof (proj1 (tally_sound T _ U _ _ _ _ (eq_trans (traced_run _ _ _) E') (counts_convert T (converters_once set) w h src dst _ _ _ _ Hw (Z.lt_le_incl _ _ H)
    (fitting_once T set src dst w h (target_usz T HT) Hw (Z.lt_le_incl _ _ H))))) as B.
  rewrite (size_of_image src dst w h) in B by auto.
  destruct (every_byte_once _ dst w h W H R X' B) as (_ & A1 & A2).
  intros n a. destruct (ResultFacts.in_image_dec dst w h n a) as [Y|Y]; [apply A1 in Y|apply A2 in Y]; rewrite Y; lia.
Qed.
Lemma c_one_value set T w h src dst sb db e : c_call set T w h src dst sb db -> one_value (c_accesses (converters set) T w h src dst sb db e).
Proof.
  intros S. pose proof (c_written_exactly _ _ _ _ _ _ _ _ e S) as X. destruct (c_call_runs _ _ _ _ _ _ _ _ e S) as (after & E & _).
  destruct S as (HT & (Hw & Hh & _) & W & H & _ & V & Su & _ & _ & _ & [_ R] & _).
  assert (U : 0 < usz T) by (pose proof (target_usz T HT); lia).
  unfold c_convert in E. unfold c_accesses in *. destruct (agree_dcp T set _ _ _ _ _ _ _ _ _ _ _ _ E) as [E' Same].
  apply (same_value _ _ Same). apply once_value.
  match type of E' with run ?c T ?m = _ => assert (X' : forall n a, (exists v, In (Writes (Dst n) a v) (fst (traced c T m))) <-> in_image dst w h n a) end.
  { intros n a. rewrite <- X. split; intros [v I]; exists v; apply Same; exact I. }
  pose proof (proj1 (tally_sound T _ U _ _ _ _ (eq_trans (traced_run _ _ _) E') (counts_dcp T (converters_once set) w h src dst _ _ _ _ e Hw (Z.lt_le_incl _ _ H)
    (fitting_once T set src dst w h (target_usz T HT) Hw (Z.lt_le_incl _ _ H))))) as B.
  rewrite (size_of_image src dst w h) in B by auto.
  destruct (every_byte_once _ dst w h W H R X' B) as (_ & A1 & A2).
  intros n a. destruct (ResultFacts.in_image_dec dst w h n a) as [Y|Y]; [apply A1 in Y|apply A2 in Y]; rewrite Y; lia.
Qed.
Lemma rust_two_values set T w h src dst sb db m : successful_call (converters set) T w h src dst sb db m ->
  forall l l', accesses (converters set) T w h src dst sb db = l ++ l' -> forall n a v, last_written l n a = Some v ->
  v = nth (Z.to_nat a) (nth n (dsts m) []) 0.
Proof.
  intros S. pose proof (rust_one_value _ _ _ _ _ _ _ _ _ S) as O. eapply no_third; [destruct S as (_ & _ & _ & _ & _ & _ & S); exact S|exact O].
Qed.
Lemma c_two_values set T w h src dst sb db e r m : c_call set T w h src dst sb db ->
  c_convert (converters set) T w h src dst sb db e = Ok r m ->
  forall l l', c_accesses (converters set) T w h src dst sb db e = l ++ l' -> forall n a v, last_written l n a = Some v ->
  v = nth (Z.to_nat a) (nth n (dsts m) []) 0.
Proof. intros S E. eapply no_third; [exact E|exact (c_one_value _ _ _ _ _ _ _ _ e S)]. Qed.
