(** The bytes that AVX2 writes twice from NV12 to RGB get the same value both times: the program that
    leaves out the first of the two writes ends with the same memory and makes the same writes. *)
From Coq Require Import ZArith List Bool Lia ZifyBool ZifyNat.
Import ListNotations.
From Verif Require Import Base Fmt Dispatch Common Scalar Vector Wrappers CpuInfo Lib Sets Spec SetSpec ApiSpec Api
  Exec ThreadFacts Trace TraceSpec TraceFacts TraceRunFacts CountFacts.
From Verif Require Avx2.
Open Scope Z_scope.
Ltac Zify.zify_post_hook ::= Z.div_mod_to_equations.

(** ** Programs with the same end and the same accesses *)
Definition agree {A} (T : target) (c c' : M A) : Prop := forall m a m', run c T m = Ok a m' ->
  run c' T m = Ok a m' /\ forall x, In x (fst (traced c' T m)) <-> In x (fst (traced c T m)).
Lemma agree_refl {A} T (c : M A) : agree T c c.
Proof. intros m a m' E. split; [exact E|tauto]. Qed.
Lemma agree_bind {A B} T (c c' : M A) (k k' : A -> M B) : agree T c c' -> (forall a, agree T (k a) (k' a)) -> agree T (Bind c k) (Bind c' k').
Proof.
  intros C K m b m' E. cbn [run] in E. destruct (run c T m) as [a m1|f] eqn:E1; [|discriminate E].
  destruct (C _ _ _ E1) as [E1' X]. destruct (K a m1 b m' E) as [E2' Y]. split; [cbn [run]; rewrite E1'; exact E2'|].
  intros x. cbn [traced]. rewrite (traced_eq T c m), (traced_eq T c' m), E1, E1', (traced_eq T (k a) m1), (traced_eq T (k' a) m1).
  cbn [fst]. rewrite !in_app_iff, X, Y. tauto.
Qed.
Lemma agree_then {A B} T (c : M A) (k k' : A -> M B) : (forall a, agree T (k a) (k' a)) -> agree T (Bind c k) (Bind c k').
Proof. intros K. apply agree_bind; [apply agree_refl|exact K]. Qed.
Lemma agree_for_from T n : forall i f f', (forall j, agree T (f j) (f' j)) -> agree T (for_from n i f) (for_from n i f').
Proof.
  induction n as [|n IH]; intros i f f' F; cbn [for_from]; [apply agree_refl|]. apply agree_bind; [apply F|intros _; apply IH, F].
Qed.
Lemma agree_for T n f f' : (forall j, agree T (f j) (f' j)) -> agree T (for_ n f) (for_ n f').
Proof. apply agree_for_from. Qed.

(** ** Storing several bytes *)
Fixpoint puts (m : mem) (n : nat) (a : Z) (l : list Z) : mem :=
  match l with [] => m | v :: l => puts (put m n a v) n (a + 1) l end.
Fixpoint marks (n : nat) (a : Z) (l : list Z) : list access :=
  match l with [] => [] | v :: l => Writes (Dst n) a v :: marks n (a + 1) l end.
Definition inside (m : mem) (n : nat) (s : slice) (j : Z) := 0 <= j < s_len s /\ 0 <= s_off s + j < zlen (nth n (dsts m) []).
Lemma put_size m n a v k : zlen (nth k (dsts (put m n a v)) []) = zlen (nth k (dsts m) []).
Proof.
  unfold put. cbn [dsts]. rewrite nth_upd_nth. destruct (_ && _) eqn:E; [|reflexivity]. unfold zlen. rewrite upd_len.
  apply andb_true_iff in E. destruct E as [E _]. apply PeanoNat.Nat.eqb_eq in E. subst. reflexivity.
Qed.
Lemma puts_size l : forall m n a k, zlen (nth k (dsts (puts m n a l)) []) = zlen (nth k (dsts m) []).
Proof. induction l as [|v l IH]; intros; cbn [puts]; [reflexivity|]. rewrite IH. apply put_size. Qed.
Lemma puts_srcs l : forall m n a, srcs (puts m n a l) = srcs m.
Proof. induction l as [|v l IH]; intros; cbn [puts]; [reflexivity|]. rewrite IH. reflexivity. Qed.
Lemma puts_len l : forall m n a, length (dsts (puts m n a l)) = length (dsts m).
Proof. induction l as [|v l IH]; intros; cbn [puts]; [reflexivity|]. rewrite IH. unfold put. cbn [dsts]. apply upd_len. Qed.
Lemma zlen_cons {A} (v : A) l : zlen (v :: l) = zlen l + 1.
Proof. unfold zlen. cbn [length]. lia. Qed.
Lemma zlen_nonneg {A} (l : list A) : 0 <= zlen l.
Proof. unfold zlen. lia. Qed.
Lemma zlen_app {A} (l l' : list A) : zlen (l ++ l') = zlen l + zlen l'.
Proof. unfold zlen. rewrite app_length. lia. Qed.
Lemma stn_traced s n : s_plane s = Dst n -> forall l i T m, (forall j, i <= j < i + zlen l -> inside m n s j) ->
  traced (stn s i l) T m = (marks n (s_off s + i) l, Ok tt (puts m n (s_off s + i) l)).
Proof.
  intros P. induction l as [|v l IH]; intros i T m I; [reflexivity|].
  cbn [stn marks puts]. unfold st, bind. cbn [traced]. rewrite P. cbv zeta. rewrite zlen_cons in I. pose proof (zlen_nonneg l) as L.
  destruct (I i) as [I1 I2]; [lia|]. replace ((0 <=? i) && (i <? s_len s) && (0 <=? s_off s + i) && (s_off s + i <? zlen (nth n (dsts m) []))) with true by lia.
  change (Mem (srcs m) _) with (put m n (s_off s + i) v). cbn [traced].
  rewrite IH.
  - replace (s_off s + (i + 1)) with (s_off s + i + 1) by lia. reflexivity.
  - intros j J. unfold inside. rewrite put_size. apply I. lia.
Qed.
Lemma stn_inside s l : forall i T m u m', run (stn s i l) T m = Ok u m' -> l <> [] ->
  exists n, s_plane s = Dst n /\ forall j, i <= j < i + zlen l -> inside m n s j.
Proof.
  induction l as [|v l IH]; intros i T m u m' E N; [contradiction N; reflexivity|]. clear N.
  cbn [stn] in E. unfold st, bind in E. cbn [run] in E. cbv zeta in E. destruct (s_plane s) as [n|n] eqn:P; [discriminate E|].
  destruct (_ && _) eqn:B; [|discriminate E]. change (Mem (srcs m) _) with (put m n (s_off s + i) v) in E. cbn [run] in E.
  exists n. split; [reflexivity|]. intros j J. rewrite zlen_cons in J. destruct (Z.eq_dec j i) as [->|]; [unfold inside; lia|].
  destruct l as [|v' l]; [cbn in J; lia|]. destruct (IH _ _ _ _ _ E ltac:(discriminate)) as (n' & P' & I). injection P' as <-.
  specialize (I j ltac:(lia)). unfold inside in *. rewrite put_size in I. exact I.
Qed.
Lemma puts_at l : forall m n a x, (forall b, a <= b < a + zlen l -> 0 <= b < zlen (nth n (dsts m) [])) -> 0 <= x -> forall k,
  byte_at (puts m n a l) (Dst k) x = if (n =? k)%nat && (a <=? x) && (x <? a + zlen l) then nth (Z.to_nat (x - a)) l 0 else byte_at m (Dst k) x.
Proof.
  induction l as [|v l IH]; intros m n a x I X k; cbn [puts].
  - change (zlen (@nil Z)) with 0. replace ((a <=? x) && (x <? a + 0)) with false by lia.
    rewrite <- andb_assoc. replace ((a <=? x) && (x <? a + 0)) with false by lia. rewrite andb_false_r. reflexivity.
  - rewrite zlen_cons in *. pose proof (zlen_nonneg l) as L. rewrite IH; [|intros b B; rewrite put_size; apply I; lia|exact X].
    rewrite put_at; [|apply I; lia|exact X]. destruct (PeanoNat.Nat.eqb_spec n k) as [->|]; cbn [andb]; [|reflexivity].
    destruct (Z.eqb_spec a x) as [->|].
    + replace ((x + 1 <=? x) && (x <? x + 1 + zlen l)) with false by lia. replace ((x <=? x) && (x <? x + (zlen l + 1))) with true by lia.
      replace (Z.to_nat (x - x)) with 0%nat by lia. reflexivity.
    + replace ((a + 1 <=? x) && (x <? a + 1 + zlen l)) with ((a <=? x) && (x <? a + (zlen l + 1))) by lia.
      destruct (_ && _) eqn:E; [|reflexivity]. replace (Z.to_nat (x - a)) with (S (Z.to_nat (x - (a + 1)))) by lia. reflexivity.
Qed.
Lemma mem_ext m m' : srcs m = srcs m' -> length (dsts m) = length (dsts m') ->
  (forall k, zlen (nth k (dsts m) []) = zlen (nth k (dsts m') [])) -> (forall k x, 0 <= x -> byte_at m (Dst k) x = byte_at m' (Dst k) x) -> m = m'.
Proof.
  destruct m as [s d], m' as [s' d']. cbn [srcs dsts]. intros -> L Z0 B. f_equal.
  apply (nth_ext _ _ [] []); [exact L|]. intros k K. apply (nth_ext _ _ 0 0); [specialize (Z0 k); unfold zlen in Z0; lia|].
  intros x X. specialize (B k (Z.of_nat x) ltac:(lia)). unfold byte_at in B. cbn [plane_bytes dsts] in B. rewrite Nat2Z.id in B. exact B.
Qed.
Lemma marks_app n l : forall l' a, marks n a (l ++ l') = marks n a l ++ marks n (a + zlen l) l'.
Proof.
  induction l as [|v l IH]; intros l' a; cbn [app marks]; [replace (a + zlen []) with a by (cbn; lia); reflexivity|].
  rewrite IH, zlen_cons. replace (a + 1 + zlen l) with (a + (zlen l + 1)) by lia. reflexivity.
Qed.

(** ** Two overlapping stores *)
Lemma agree_twice T s i (p q f : list Z) : (zlen p = 16 \/ q = []) -> (zlen f = 16 \/ p = []) ->
  agree T (stn s (i + 16) (p ++ q) ;; stn s i (f ++ p)) (stn s (i + 32) q ;; stn s i (f ++ p)).
Proof.
  unfold bind. intros P F m u m' E. cbn [run] in E. destruct (run (stn s (i + 16) (p ++ q)) T m) as [u1 m1|] eqn:E1; [|discriminate E].
  assert (C : p ++ q = [] \/ p ++ q <> []) by (destruct (p ++ q); [left; reflexivity|right; discriminate]).
  destruct C as [C|C].
  { apply app_eq_nil in C. destruct C as [-> ->]. cbn [app stn run] in E1. injection E1 as _ ->. split.
    - cbn [run stn]. exact E.
    - intros x. cbn [traced stn app]. tauto. }
  destruct (stn_inside _ _ _ _ _ _ _ E1 C) as (n & Pn & I1).
  rewrite <- traced_run, (stn_traced s n Pn _ _ _ _ I1) in E1. cbn [snd] in E1. injection E1 as _ <-.
  assert (I2 : forall j, i <= j < i + zlen (f ++ p) -> inside m n s j).
  { intros j J. assert (N : f ++ p <> []) by (intros N; rewrite N in J; cbn in J; lia).
    destruct (stn_inside _ _ _ _ _ _ _ E N) as (n' & Pn' & I2). rewrite Pn in Pn'. injection Pn' as <-.
    specialize (I2 j J). unfold inside in *. rewrite puts_size in I2. exact I2. }
  rewrite !zlen_app in *.
  assert (I3 : forall j, i + 32 <= j < i + 32 + zlen q -> inside m n s j).
  { intros j J. apply I1. destruct P as [P| ->]; [lia|cbn in J; lia]. }
  rewrite <- traced_run, (stn_traced s n Pn) in E by (intros j J; rewrite zlen_app in J; unfold inside; rewrite puts_size; apply I2, J).
  cbn [snd] in E. injection E as <- <-.
  assert (E2 : traced (stn s (i + 32) q) T m = (marks n (s_off s + (i + 32)) q, Ok tt (puts m n (s_off s + (i + 32)) q))) by (apply stn_traced; assumption).
  assert (E3 : forall m0, (forall k, zlen (nth k (dsts m0) []) = zlen (nth k (dsts m) [])) ->
    traced (stn s i (f ++ p)) T m0 = (marks n (s_off s + i) (f ++ p), Ok tt (puts m0 n (s_off s + i) (f ++ p)))).
  { intros m0 M. apply stn_traced; [exact Pn|]. intros j J. rewrite zlen_app in J. unfold inside. rewrite M. apply I2, J. }
  split.
  - cbn [run]. rewrite <- traced_run, E2. cbn [snd]. rewrite <- traced_run, E3 by (intros; apply puts_size). cbn [snd]. f_equal.
    apply mem_ext; rewrite ?puts_srcs, ?puts_len; auto; [intros k; rewrite !puts_size; reflexivity|].
    set (a := s_off s) in *.
    assert (B1 : forall b, a + (i + 16) <= b < a + (i + 16) + zlen (p ++ q) -> 0 <= b < zlen (nth n (dsts m) [])).
    { intros b B. rewrite zlen_app in B. destruct (I1 (b - a) ltac:(lia)) as [_ Q]. fold a in Q. lia. }
    assert (B2 : forall b, a + i <= b < a + i + zlen (f ++ p) -> 0 <= b < zlen (nth n (dsts m) [])).
    { intros b B. rewrite zlen_app in B. destruct (I2 (b - a) ltac:(lia)) as [_ Q]. fold a in Q. lia. }
    assert (B3 : forall b, a + (i + 32) <= b < a + (i + 32) + zlen q -> 0 <= b < zlen (nth n (dsts m) [])).
    { intros b B. destruct (I3 (b - a) ltac:(lia)) as [_ Q]. fold a in Q. lia. }
    intros k x X. rewrite !puts_at; rewrite ?puts_size; auto; try (intros b B; rewrite puts_size; auto).
    destruct (PeanoNat.Nat.eqb_spec n k) as [<-|]; cbn [andb]; [|reflexivity].
    destruct ((a + i <=? x) && (x <? a + i + zlen (f ++ p))) eqn:K1; [reflexivity|].
    destruct ((a + (i + 32) <=? x) && (x <? a + (i + 32) + zlen q)) eqn:K2.
    + destruct P as [P| ->]; [|cbn in K2; lia].
      replace ((a + (i + 16) <=? x) && (x <? a + (i + 16) + zlen (p ++ q))) with true by (rewrite zlen_app; lia).
      rewrite app_nth2 by (unfold zlen in P; lia). f_equal. unfold zlen in P. lia.
    + replace ((a + (i + 16) <=? x) && (x <? a + (i + 16) + zlen (p ++ q))) with false; [reflexivity|]. symmetry.
      rewrite zlen_app in *. pose proof (zlen_nonneg f). destruct P as [P| ->], F as [F| ->]; change (zlen (@nil Z)) with 0 in *; lia.
  - intros x. cbn [traced]. rewrite E2, (stn_traced s n Pn (p ++ q)) by (intros j J; rewrite zlen_app in J; apply I1, J).
    rewrite !E3 by (intros; apply puts_size). cbn [fst]. rewrite !in_app_iff, !marks_app, !in_app_iff.
    assert (X : In x (marks n (s_off s + (i + 16)) p) -> In x (marks n (s_off s + i + zlen f) p)).
    { destruct F as [-> | ->]; [|intros []]. replace (s_off s + i + 16) with (s_off s + (i + 16)) by lia. auto. }
    assert (Y : In x (marks n (s_off s + (i + 16) + zlen p) q) <-> In x (marks n (s_off s + (i + 32)) q)).
    { destruct P as [-> | ->]; [|cbn [marks In]; tauto]. replace (s_off s + (i + 16) + 16) with (s_off s + (i + 32)) by lia. tauto. }
    tauto.
Qed.
Lemma agree_store T d o r g b : agree T (Avx2.store_rgb_16x d o r g b) (store_rgb_once d o r g b).
Proof.
  unfold Avx2.store_rgb_16x, store_rgb_once. destruct (Avx2.pack_rgb_16x r g b) as [a0 a1].
  destruct (list_eq_dec _ _ _) as [E|E]; [|apply agree_refl].
  rewrite <- (firstn_skipn 16 a0) at 1. rewrite <- (firstn_skipn 16 a1), E. apply agree_twice.
  - destruct (Nat.leb_spec 16 (length a0)); [left; unfold zlen; rewrite firstn_length; lia|right; apply skipn_all2; lia].
  - rewrite <- E. destruct (Nat.leb_spec 16 (length a1)); [left; unfold zlen; rewrite firstn_length; lia|right; apply skipn_all2; lia].
Qed.

(** ** The kernel, the converter, the calls *)
Lemma agree_kernel T c w h ss src ds dst : agree T (Avx2.nv12_to_rgb_avx2 c w h ss src ds dst) (nv12_to_rgb_once c w h ss src ds dst).
Proof.
  unfold Avx2.nv12_to_rgb_avx2, nv12_to_rgb_once. destruct ss as [ys us], src as [yb ub].
  apply agree_for. intros y. apply agree_for. intros x. apply agree_then. intros i. apply agree_then. intros [cb cr].
  unfold Avx2.tile_32x2. destruct (Avx2.chroma_16x c cb cr) as [[sr sg] sb].
  destruct (Avx2.i16_to_i16x2_16x sb), (Avx2.i16_to_i16x2_16x sr), (Avx2.i16_to_i16x2_16x sg). cbv zeta. unfold Avx2.pixels_16x.
  repeat lazymatch goal with
  | |- agree T (Avx2.store_rgb_16x ?d ?o ?r ?g ?b) _ => exact (agree_store T d o r g b)
  | |- agree T (bind (Avx2.store_rgb_16x ?d ?o ?r ?g ?b) (fun _ => ?k)) (bind _ (fun _ => ?k')) =>
      refine (agree_bind T _ _ (fun _ => k) (fun _ => k') (agree_store T d o r g b) _); intros _
  | |- agree T (bind ?c ?k) (bind ?c ?k') => refine (agree_then T c k k' _); intros ?; cbv beta
  end.
Qed.
Lemma agree_if {A} T (b : bool) (c c' d d' : M A) : agree T c c' -> agree T d d' -> agree T (if b then c else d) (if b then c' else d').
Proof. destruct b; auto. Qed.
Lemma agree_hyb T c w h ss src ds dst :
  agree T (hyb_2_1 (fun w => lower_multiple_of_pot w Avx2.YUV_TO_RGB_WAVES) 3 (Avx2.nv12_to_rgb_avx2 c) (nv12_to_rgb c) w h ss src ds dst)
          (hyb_2_1 (fun w => lower_multiple_of_pot w Avx2.YUV_TO_RGB_WAVES) 3 (nv12_to_rgb_once c) (nv12_to_rgb c) w h ss src ds dst).
Proof.
  unfold hyb_2_1. cbv zeta. apply agree_bind; [|intros _; apply agree_refl]. apply agree_if; [apply agree_kernel|apply agree_refl].
Qed.
Lemma agree_wrapper T d (k k' : kernel_2_1) : (forall w h ss src ds dst, agree T (k w h ss src ds dst) (k' w h ss src ds dst)) ->
  forall w h l ss sb l' ds db, agree T (nv12_rgb_w d k w h l ss sb l' ds db) (nv12_rgb_w d k' w h l ss sb l' ds db).
Proof.
  intros K w h l ss sb l' ds db. unfold nv12_rgb_w. cbv zeta.
  destruct (_ || _); [apply agree_refl|]. destruct (_ || _); [apply agree_refl|].
  do 6 (apply agree_then; intros ?). apply agree_then. intros [[yb uvb]|]; [|apply agree_refl].
  apply agree_then. intros b. apply agree_then. intros []; [apply agree_refl|]. apply agree_bind; [apply K|intros _; apply agree_refl].
Qed.
Lemma agree_converters T set c w h l ss sb l' ds db :
  agree T (converters set c w h l ss sb l' ds db) (converters_once set c w h l ss sb l' ds db).
Proof.
  destruct set; try exact (agree_refl T _). destruct c as [| |s cs d]; try exact (agree_refl T _).
  destruct s, d; lazymatch goal with
  | |- agree T (converters _ (Yuv_rgb Nv12 ?cs Rgb) _ _ _ _ _ _ _ _) _ =>
      exact (agree_wrapper T 3 _ _ (agree_hyb T (colorimetry_of cs)) w h l ss sb l' ds db)
  | _ => exact (agree_refl T _)
  end.
Qed.
Lemma agree_convert T set w h sf ss sb df ds db :
  agree T (convert_image (converters set) w h sf ss sb df ds db) (convert_image (converters_once set) w h sf ss sb df ds db).
Proof.
  unfold convert_image. cbv zeta. destruct (_ || _); [apply agree_refl|].
  apply agree_then. intros []; cbn [negb]; [|apply agree_refl]. apply agree_then. intros []; cbn [negb]; [|apply agree_refl].
  destruct (_ <=? _); [apply agree_refl|]. apply agree_then. intros [c|]; [|apply agree_refl].
  refine (agree_bind T _ _ _ _ (agree_converters T set c _ _ _ _ _ _ _ _) _). intros ?. exact (agree_refl T _).
Qed.
Lemma agree_dcp T set w h sf ss sb df ds db e :
  agree T (dcp_convert_image (converters set) w h sf ss sb df ds db e) (dcp_convert_image (converters_once set) w h sf ss sb df ds db e).
Proof.
  unfold dcp_convert_image. destruct sf as [sf|], sb as [sb|], df as [df|], db as [db|]; try apply agree_refl.
  destruct (_ || _); [apply agree_refl|]. apply agree_then. intros []; [apply agree_refl|].
  apply agree_then. intros [sl|]; [|apply agree_refl]. apply agree_then. intros [dl|]; [|apply agree_refl].
  refine (agree_bind T _ _ _ _ (agree_convert T set _ _ _ _ _ _ _ _) _). intros ?. exact (agree_refl T _).
Qed.
