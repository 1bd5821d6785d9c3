(** The work of whole calls. *)
From Coq Require Import ZArith List Bool Lia ZifyBool ZifyNat.
Import ListNotations.
From Verif Require Import Base Fmt Dispatch Common Wrappers CpuInfo Lib Sets Spec ApiSpec Api LibFacts Trace TraceRunFacts WorkSpec WorkFacts.
Open Scope Z_scope.
Ltac Zify.zify_post_hook ::= Z.div_mod_to_equations.

Lemma fits_work_all T set spf dpf scs dcs : 2 ^ 32 <= usz T -> supported spf dpf = true -> fits_work T set (conv_of spf dpf scs dcs).
Proof. intros U S. destruct set; [apply work_x86|apply work_sse2|apply work_avx2|apply work_neon]; auto. Qed.

(** Every entry of the table is a conversion between two formats. *)
Definition ends (c : conv) : pixel_format * pixel_format * color_space :=
  match c with Rgb_rgb s d => (s, d, CsRgb) | Rgb_yuv s d cs => (s, d, cs) | Yuv_rgb s cs d => (s, d, cs) end.
Definition entry_fine (o : option conv) : bool :=
  match o with
  | None => true
  | Some c => let '(s, d, cs) := ends c in supported s d && conv_eqb c (conv_of s d cs cs)
  end.
Lemma entries_fine : forallb entry_fine dispatch_table = true.
Proof. vm_compute. reflexivity. Qed.
Lemma entry_work T set c : 2 ^ 32 <= usz T -> In (Some c) dispatch_table -> fits_work T set c.
Proof.
  intros U I. pose proof (proj1 (forallb_forall _ _) entries_fine _ I) as E. unfold entry_fine in E.
  destruct (ends c) as [[s d] cs]. apply andb_true_iff in E. destruct E as [S E]. apply conv_eqb_ok in E. rewrite E.
  apply fits_work_all; assumption.
Qed.

Section Calls.
Variable T : target.
Hypothesis Hu : 2 ^ 32 <= usz T.

Lemma takes_index {A} (l : list A) i : takes T (index l i) 0 (fun a => In a l).
Proof.
  unfold index. destruct (_ && _); [|apply takes_raise]. destruct (nth_error _ _) eqn:E; [|apply takes_raise].
  apply takes_ret. eapply nth_error_In. exact E.
Qed.
Lemma takes_index_any {A} (l : list A) i : takes T (index l i) 0 any.
Proof. eapply takes_mono; [apply takes_index|lia|intros; exact I]. Qed.
Lemma takes_compatible a b c d : takes T (is_compatible a b c d) 0 any.
Proof. unfold is_compatible. apply (takes_bind T _ _ 0 0); [apply takes_index_any|intros ?; apply takes_ret; exact I|lia]. Qed.
Lemma takes_planes a b : takes T (are_planes_compatible a b) 0 any.
Proof. unfold are_planes_compatible. cbv zeta. apply (takes_bind T _ _ 0 0); [apply takes_index_any|intros ?; apply takes_ret; exact I|lia]. Qed.

Lemma takes_map {A B} (c : M A) (f : A -> B) n : takes T c n any -> takes T (bind c (fun a => ret (f a))) n any.
Proof. intros H. eapply takes_le; [eapply takes_bind; [exact H|intros ?; apply takes_ret; exact I|lia]|lia]. Qed.
Lemma takes_convert set w h sf ss sb df ds db : 0 <= w < 2 ^ 32 -> 0 <= h ->
  takes T (convert_image (converters set) w h sf ss sb df ds db) (100 + 40 * (w * h)) any.
Proof.
  intros W H. assert (N : 0 <= 40 * (w * h)) by nia.
  unfold convert_image. cbv zeta. destruct (_ || _); [apply takes_retn; lia|].
  apply (takes_spend T 0); [apply takes_compatible|lia|intros []; cbn [negb]; [|apply takes_retn; lia]].
  apply (takes_spend T 0); [apply takes_compatible|lia|intros []; cbn [negb]; [|apply takes_retn; lia]].
  destruct (_ <=? _); [apply takes_retn; lia|].
  eapply takes_le; [eapply takes_then with (n' := 100 + 40 * (w * h)); [apply takes_index| |lia]|lia].
  intros [c|] I; [|apply takes_retn; lia].
  apply (takes_map _ (fun r : bool => if r then Success else Err NotEnoughData)). eapply takes_le; [apply (entry_work T set c Hu I); assumption|lia].
Qed.
Lemma takes_c_planes mk ptrs n : forall i l, takes T (c_planes mk ptrs i n l) 0 any.
Proof.
  induction n as [|n IH]; intros i l; cbn [c_planes]; [apply takes_ret; exact I|].
  destruct (nth_error ptrs i) as [[|]|]; [|apply takes_ret; exact I|apply takes_raise]. apply IH.
Qed.
Lemma takes_c_convert set w h sf ss sp df ds dp e : 0 <= w < 2 ^ 32 -> 0 <= h ->
  takes T (dcp_convert_image (converters set) w h sf ss sp df ds dp e) (100 + 40 * (w * h)) any.
Proof.
  intros W H. assert (N : 0 <= 40 * (w * h)) by nia.
  unfold dcp_convert_image. destruct sf as [sf|], df as [df|], sp as [sp|], dp as [dp|]; try (apply takes_retn; lia).
  destruct (_ || _); [apply takes_retn; lia|].
  apply (takes_spend T 0); [apply (takes_orM T _ _ 0 0); [apply (takes_map _ negb), takes_planes|apply (takes_map _ negb), takes_planes|lia]|lia|].
  intros []; [apply takes_retn; lia|].
  apply (takes_spend T 0); [apply takes_c_planes|lia|intros [sl|]; [|apply takes_retn; lia]].
  apply (takes_spend T 0); [apply takes_c_planes|lia|intros [dl|]; [|apply takes_retn; lia]].
  eapply takes_le; [eapply takes_bind with (n' := 0); [exact (takes_convert set w h _ _ _ _ _ _ W H)|intros []; apply takes_ret; exact I|lia]|lia].
Qed.

Lemma takes_plane_stride a b c d : takes T (plane_stride a b c d) 1 any.
Proof. unfold plane_stride. destruct (_ || _); [apply takes_ures; exact I|apply takes_retn; lia]. Qed.
Lemma takes_fill hs sp l : forall i b, takes T (fill_sizes hs sp l i b) (zlen l) any.
Proof.
  induction l as [|s l IH]; intros i b; cbn [fill_sizes]; [apply takes_retn; unfold zlen; cbn; lia|].
  replace (zlen (s :: l)) with (1 + zlen l) by (unfold zlen; cbn [length]; lia). assert (0 <= zlen l) by (unfold zlen; lia).
  destruct b as [|x b]; [apply takes_retn; lia|].
  apply takes_bind; [apply takes_ures; exact I|intros ?|lia]. apply takes_map, IH.
Qed.
Ltac sized :=
  repeat lazymatch goal with
  | |- takes _ (bind (index _ _) _) _ _ => apply (takes_spend T 0); [apply takes_index_any|lia|intros ?]
  | |- takes _ (bind (plane_stride _ _ _ _) _) _ _ => apply (takes_spend T 1); [apply takes_plane_stride|lia|intros ?]
  | |- takes _ (bind (umul _ _) _) _ _ => apply (takes_spend T 1); [apply takes_ures; exact I|lia|intros ?]
  | |- takes _ (bind (uadd _ _) _) _ _ => apply (takes_spend T 1); [apply takes_ures; exact I|lia|intros ?]
  | |- takes _ (ret _) _ _ => apply takes_retn; lia
  end.
Lemma takes_sizes pf w h l ss b : takes T (pf_get_buffers_size pf w h l ss b) 11 any.
Proof.
  unfold pf_get_buffers_size. destruct (_ || _); [apply takes_retn; lia|]. sized. destruct (_ =? _); [sized|].
  apply takes_map. eapply takes_le; [apply takes_fill|]. unfold zlen. rewrite firstn_length. cbn [length]. lia.
Qed.
Lemma takes_get_sizes w h f ss b : takes T (get_buffers_size w h f ss b) 11 any.
Proof.
  unfold get_buffers_size. cbv zeta. apply (takes_spend T 0); [apply takes_compatible|lia|intros []; cbn [negb]; [|apply takes_retn; lia]].
  eapply takes_le; [eapply takes_bind with (n' := 0); [apply takes_sizes|intros [[] ?]; apply takes_ret; exact I|lia]|lia].
Qed.
Lemma takes_c_sizes w h f ss b e : takes T (dcp_get_buffers_size w h f ss b e) 11 any.
Proof.
  unfold dcp_get_buffers_size. destruct f as [f|], b as [b|]; try (apply takes_retn; lia).
  destruct (negb _); [apply takes_retn; lia|].
  apply (takes_spend T 0); [apply takes_planes|lia|intros []; cbn [negb]; [|apply takes_retn; lia]]. cbv zeta.
  assert (K : forall ss b, takes T ('(o, sizes) <- get_buffers_size w h f ss (firstn (Z.to_nat (f_planes f)) b) ;;
    match o with Success => ret (C_Ok, e, Some (sizes ++ skipn (Z.to_nat (f_planes f)) b)%list)
    | Err k => ret (set_error e k, Some (sizes ++ skipn (Z.to_nat (f_planes f)) b)%list) end) (11 - 0) any).
  { intros ss' b'. eapply takes_le; [eapply takes_bind with (n' := 0); [apply takes_get_sizes|intros [[] ?]; apply takes_ret; exact I|lia]|lia]. }
  destruct ss as [ss|].
  - destruct (zlen ss <? _); [apply takes_raisen; lia|]. destruct (_ <? _); [apply takes_raisen; lia|]. apply K.
  - destruct (_ <? _); [apply takes_raisen; lia|]. apply K.
Qed.
End Calls.

Lemma takes_steps {A} T (c : M A) n (P : A -> Prop) m : 0 < usz T -> takes T c n P -> steps c T m <= n.
Proof. intros U H. pose proof (effort_sound T c U n _ m H) as E. destruct (run c T m); [destruct E|]; lia. Qed.

(** No more accesses than steps. *)
Lemma steps_nonneg {A} (c : M A) T : forall m, 0 <= steps c T m.
Proof.
  induction c as [a|f|A B c IH k IHk|A k IH|A r k IH|A r k IH|A s i k IH|A s i v k IH]; intros m; cbn [steps].
  - lia.
  - lia.
  - specialize (IH m). destruct (run c T m) as [b m1|f]; [specialize (IHk b m1)|]; lia.
  - apply IH.
  - destruct (_ && _); [specialize (IH r m); lia|]. destruct (checked T); [lia|]. specialize (IH (r mod usz T) m). lia.
  - destruct (_ && _); [specialize (IH r m); lia|]. destruct (checked T); [lia|]. specialize (IH (wrap_i32 r) m). lia.
  - cbv zeta. destruct (_ && _ && _ && _); [|lia]. match goal with |- context [steps (k ?v) T m] => specialize (IH v m) end. lia.
  - destruct (s_plane s); [lia|]. cbv zeta. destruct (_ && _ && _ && _); [|lia]. match goal with |- context [steps (k tt) T ?m1] => specialize (IH tt m1) end. lia.
Qed.
Lemma accesses_steps {A} (c : M A) T : forall m, Z.of_nat (length (fst (traced c T m))) <= steps c T m.
Proof.
  induction c as [a|f|A B c IH k IHk|A k IH|A r k IH|A r k IH|A s i k IH|A s i v k IH]; intros m; cbn [steps traced fst length].
  - lia.
  - lia.
  - specialize (IH m). pose proof (traced_run T c m) as R. destruct (traced c T m) as [l [b m1|f]]; cbn [snd fst] in *; rewrite <- R; [|lia].
    specialize (IHk b m1). destruct (traced (k b) T m1) as [l' r]. cbn [fst] in *. rewrite app_length. lia.
  - apply IH.
  - destruct (_ && _); [specialize (IH r m); lia|]. destruct (checked T); [cbn [fst length]; lia|]. specialize (IH (r mod usz T) m). lia.
  - destruct (_ && _); [specialize (IH r m); lia|]. destruct (checked T); [cbn [fst length]; lia|]. specialize (IH (wrap_i32 r) m). lia.
  - cbv zeta. destruct (_ && _ && _ && _); [|cbn [fst length]; lia].
    match goal with |- context [steps (k ?v) T m] => specialize (IH v m); destruct (traced (k v) T m) end. cbn [fst length] in *. lia.
  - destruct (s_plane s); [cbn [fst length]; lia|]. cbv zeta. destruct (_ && _ && _ && _); [|cbn [fst length]; lia].
    match goal with |- context [steps (k tt) T ?m1] => specialize (IH tt m1); destruct (traced (k tt) T m1) end. cbn [fst length] in *. lia.
Qed.

(** ** Calls *)
Lemma word_size_ok T : usz T = 2 ^ 64 \/ usz T = 2 ^ 32 -> 2 ^ 32 <= usz T /\ 0 < usz T.
Proof. intros [-> | ->]; lia. Qed.
Lemma c63 set T w h sf ss sb df ds db m : usz T = 2 ^ 64 \/ usz T = 2 ^ 32 -> 0 <= w < 2 ^ 32 -> 0 <= h < 2 ^ 32 ->
  steps (convert_image (converters set) w h sf ss sb df ds db) T m <= 100 + 40 * (w * h).
Proof. intros U W H. destruct (word_size_ok T U) as [U1 U2]. eapply takes_steps; [exact U2|]. apply takes_convert; [exact U1|exact W|lia]. Qed.
Lemma c63_c set T w h sf ss sp df ds dp e m : usz T = 2 ^ 64 \/ usz T = 2 ^ 32 -> 0 <= w < 2 ^ 32 -> 0 <= h < 2 ^ 32 ->
  steps (dcp_convert_image (converters set) w h sf ss sp df ds dp e) T m <= 100 + 40 * (w * h).
Proof. intros U W H. destruct (word_size_ok T U) as [U1 U2]. eapply takes_steps; [exact U2|]. apply takes_c_convert; [exact U1|exact W|lia]. Qed.
Lemma c63_sizes T w h f ss b m : usz T = 2 ^ 64 \/ usz T = 2 ^ 32 -> steps (get_buffers_size w h f ss b) T m <= 11.
Proof. intros U. destruct (word_size_ok T U) as [U1 U2]. eapply takes_steps; [exact U2|]. apply takes_get_sizes. Qed.
Lemma c63_c_sizes T w h f ss b e m : usz T = 2 ^ 64 \/ usz T = 2 ^ 32 -> steps (dcp_get_buffers_size w h f ss b e) T m <= 11.
Proof. intros U. destruct (word_size_ok T U) as [U1 U2]. eapply takes_steps; [exact U2|]. apply takes_c_sizes. Qed.
Lemma c63_accesses set T w h src dst sb db : usz T = 2 ^ 64 \/ usz T = 2 ^ 32 -> 0 <= w < 2 ^ 32 -> 0 <= h < 2 ^ 32 ->
  Z.of_nat (length (accesses (converters set) T w h src dst sb db)) <= 100 + 40 * (w * h).
Proof. intros U W H. unfold accesses. etransitivity; [apply accesses_steps|]. apply c63; assumption. Qed.
