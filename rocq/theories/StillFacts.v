(** Calls that access nothing. *)
From Coq Require Import ZArith List Bool Lia ZifyBool ZifyNat.
Import ListNotations.
From Verif Require Import Base Fmt Common Wrappers Vector CpuInfo Lib Sets Spec ApiSpec Api BigFacts Trace TraceSpec TraceFacts TraceRunFacts.
From Verif Require Sse2 Avx2 Neon.
Open Scope Z_scope.

(** [P] holds of the result of [c] and of whether there was any access: [b] before [c]. *)
Fixpoint still {A} (c : M A) (b : bool) (P : bool -> A -> Prop) {struct c} : Prop :=
  match c with
  | Ret a => P b a
  | Raise _ => True
  | Bind c k => still c b (fun b x => still (k x) b P)
  | Ask k => forall T, still (k T) b P
  | Usize _ k => forall v, still (k v) b P
  | Int32 _ k => forall v, still (k v) b P
  | Read _ _ k => forall v, still (k v) true P
  | Write _ _ _ k => still (k tt) true P
  end.

Lemma still_mono {A} (c : M A) : forall b (P Q : bool -> A -> Prop), (forall t a, P t a -> Q t a) -> still c b P -> still c b Q.
Proof.
  induction c as [a|f|A B c IH k IHk|A k IH|A r k IH|A r k IH|A s i k IH|A s i v k IH]; intros b P Q H; cbn [still]; auto;
    try (intros C T; exact (IH T _ P Q H (C T))).
  - apply IH. intros t x. apply IHk, H.
  - exact (IH tt _ P Q H).
Qed.
Lemma still_any {A} (c : M A) : forall b (P : bool -> A -> Prop), (forall t a, P t a) -> still c b P.
Proof.
  induction c as [a|f|A B c IH k IHk|A k IH|A r k IH|A r k IH|A s i k IH|A s i v k IH]; intros b P H; cbn [still]; auto.
Qed.
Definition dry {A} (c : M A) : Prop := forall b, still c b (fun t _ => t = b).
Lemma still_dry {A B} (c : M A) (k : A -> M B) b P : dry c -> (forall a, still (k a) b P) -> still (bind c k) b P.
Proof. intros D H. unfold bind. cbn [still]. eapply still_mono; [|apply D]. intros t a ->. apply H. Qed.
Lemma dry_ret {A} (a : A) : dry (ret a).
Proof. intros b. reflexivity. Qed.
Lemma dry_raise {A} f : dry (@raise A f).
Proof. intros b. exact I. Qed.
Lemma dry_ures r : dry (ures r).
Proof. intros b v. reflexivity. Qed.
Lemma dry_bind {A B} (c : M A) (k : A -> M B) : dry c -> (forall a, dry (k a)) -> dry (bind c k).
Proof. intros D H b. apply still_dry; [exact D|]. intros a. apply H. Qed.
Lemma dry_oob a b c d : dry (out_of_bounds a b c d).
Proof.
  intros t T. cbv beta. destruct (_ <? _); [reflexivity|]. destruct (_ =? _); [reflexivity|]. destruct (_ <? _); [reflexivity|].
  intros v v'. reflexivity.
Qed.
Ltac dry_step :=
  lazymatch goal with
  | |- dry (bind _ _) => apply dry_bind; [|intros ?]
  | |- dry (ret _) => apply dry_ret
  | |- dry (raise _) => apply dry_raise
  | |- dry (ures _) => apply dry_ures
  | |- dry (out_of_bounds _ _ _ _) => apply dry_oob
  | |- dry (if ?b then _ else _) => destruct b
  | |- dry (match ?x with _ => _ end) => destruct x
  | |- dry ?c => let f := head c in unfold f; cbv beta zeta
  end.
Ltac dries := repeat dry_step.

(** An access means that the image is converted. *)
Definition only_then {A} (yes : A) (w h : Z) (t : bool) (r : A) : Prop := t = true -> r = yes /\ w <> 0 /\ h <> 0.

Ltac still_wrapper :=
  match goal with |- context [if ?b then _ else _] => destruct b eqn:?; [intros E; discriminate E|] end;
  repeat lazymatch goal with
  | |- still (if ?b then _ else _) _ _ => destruct b
  | |- still (ret _) _ _ => intros E; discriminate E
  | |- still (bind _ (fun _ => ret true)) _ _ => unfold bind; cbn [still]; apply still_any; intros t u _; split; [reflexivity|lia]
  | |- still (bind _ _) _ _ => apply still_dry; [dries; fail|intros ?]
  | |- still (match ?x with _ => _ end) _ _ => destruct x
  end.
Lemma still_rgb_rgb_w sd dd k w h l ss sb l' ds db : still (rgb_rgb_w sd dd k w h l ss sb l' ds db) false (only_then true w h).
Proof. unfold rgb_rgb_w. cbv zeta. still_wrapper. Qed.
Lemma still_rgb_i4xx_w sub dp k w h l ss sb l' ds db : still (rgb_i4xx_w sub dp k w h l ss sb l' ds db) false (only_then true w h).
Proof. unfold rgb_i4xx_w. cbv zeta. still_wrapper. Qed.
Lemma still_i4xx_rgb_w sub dp k w h l ss sb l' ds db : still (i4xx_rgb_w sub dp k w h l ss sb l' ds db) false (only_then true w h).
Proof. unfold i4xx_rgb_w. cbv zeta. still_wrapper. Qed.
Lemma still_rgb_nv12_w dp k w h l ss sb l' ds db : still (rgb_nv12_w dp k w h l ss sb l' ds db) false (only_then true w h).
Proof. unfold rgb_nv12_w. cbv zeta. still_wrapper. Qed.
Lemma still_nv12_rgb_w dp k w h l ss sb l' ds db : still (nv12_rgb_w dp k w h l ss sb l' ds db) false (only_then true w h).
Proof. unfold nv12_rgb_w. cbv zeta. still_wrapper. Qed.

Ltac still_converter :=
  first [apply still_rgb_rgb_w|apply still_rgb_i4xx_w|apply still_rgb_nv12_w|apply still_i4xx_rgb_w|apply still_nv12_rgb_w].
Lemma still_x86 c w h l ss sb l' ds db : still (x86_converter c w h l ss sb l' ds db) false (only_then true w h).
Proof. destruct c as [s d|s d cs|s cs d]; [destruct s|destruct d|destruct s]; cbn [x86_converter]; still_converter. Qed.
Lemma still_sse2 c w h l ss sb l' ds db : still (sse2_converter c w h l ss sb l' ds db) false (only_then true w h).
Proof. destruct c as [s d|s d cs|s cs d]; [destruct s|destruct d|destruct s]; cbn [sse2_converter]; still_converter. Qed.
Lemma still_avx2 c w h l ss sb l' ds db : still (avx2_converter c w h l ss sb l' ds db) false (only_then true w h).
Proof. destruct c as [s d|s d cs|s cs d]; [destruct s|destruct d|destruct s]; cbn [avx2_converter]; still_converter. Qed.
Lemma still_neon c w h l ss sb l' ds db : still (neon_converter c w h l ss sb l' ds db) false (only_then true w h).
Proof. destruct c as [s d|s d cs|s cs d]; [destruct s|destruct d|apply still_x86]; cbn [neon_converter]; still_converter. Qed.

Lemma still_convert_image set w h sf ss sb df ds db :
  still (convert_image (converters set) w h sf ss sb df ds db) false (only_then Success w h).
Proof.
  unfold convert_image. cbv zeta.
  repeat lazymatch goal with
  | |- still (ret _) _ _ => intros E; discriminate E
  | |- still (if ?b then _ else _) _ _ => destruct b
  | |- still (match ?x with _ => _ end) _ _ => destruct x
  | |- still (bind (converters _ _ _ _ _ _ _ _ _ _) _) _ _ => fail
  | |- still (bind _ _) _ _ => apply still_dry; [dries; fail|intros ?]
  end.
  unfold bind. cbn [still]. eapply still_mono; [|destruct set; [apply still_x86|apply still_sse2|apply still_avx2|apply still_neon]].
  intros t r H E. destruct (H E) as [-> W]. split; [reflexivity|exact W].
Qed.
Lemma dry_c_planes mk ptrs n : forall i l, dry (c_planes mk ptrs i n l).
Proof.
  induction n as [|n IH]; intros i l; cbn [c_planes]; [apply dry_ret|].
  destruct (nth_error ptrs i) as [[|]|]; [|apply dry_ret|apply dry_raise]. intros b T. apply IH.
Qed.
Lemma still_dcp set w h sf ss sp df ds dp e :
  still (dcp_convert_image (converters set) w h sf ss sp df ds dp e) false (only_then (C_Ok, e) w h).
Proof.
  unfold dcp_convert_image. destruct sf as [sf|], df as [df|], sp as [sp|], dp as [dp|]; try (intros E; discriminate E).
  destruct (_ || _); [intros E; discriminate E|]. apply still_dry; [dries; fail|intros bad].
  destruct bad; [intros E; discriminate E|].
  apply still_dry; [apply dry_c_planes|intros [sl|]; [|intros E; discriminate E]].
  apply still_dry; [apply dry_c_planes|intros [dl|]; [|intros E; discriminate E]].
  unfold bind. cbn [still]. intros T. eapply still_mono; [|apply still_convert_image].
  intros t r H. destruct r; intros E; destruct (H E) as [R W]; [split; [reflexivity|exact W]|discriminate R].
Qed.

Lemma still_traced {A} T (c : M A) : forall m b P a m', still c b P -> run c T m = Ok a m' ->
  exists t, P t a /\ (b = true -> t = true) /\ (fst (traced c T m) <> [] -> t = true).
Proof.
  induction c as [a|f|A B c IH k IHk|A k IH|A r k IH|A r k IH|A s i k IH|A s i v k IH]; intros m b P x m' C E; cbn [traced run still] in *.
  - injection E as <- <-. exists b. split; [exact C|]. split; [auto|]. intros N. destruct (N eq_refl).
  - discriminate E.
  - rewrite (traced_eq T c m). specialize (IH m b (fun b x => still (k x) b P)). destruct (run c T m) as [y m1|f]; [|discriminate E].
    destruct (IH y m1 C eq_refl) as (t & C1 & B1 & N1). destruct (IHk y m1 t P x m' C1 E) as (t' & C2 & B2 & N2).
    exists t'. split; [exact C2|]. split; [auto|]. rewrite (traced_eq T (k y) m1). cbn [fst].
    destruct (fst (traced c T m)); [exact N2|]. intros _. apply B2, N1. discriminate.
  - exact (IH T m b P x m' (C T) E).
  - destruct (_ && _); [exact (IH _ m b P x m' (C _) E)|]. destruct (checked T); [discriminate E|exact (IH _ m b P x m' (C _) E)].
  - destruct (_ && _); [exact (IH _ m b P x m' (C _) E)|]. destruct (checked T); [discriminate E|exact (IH _ m b P x m' (C _) E)].
  - cbv zeta in E. destruct (_ && _); [|discriminate E]. destruct (IH _ m true P x m' (C _) E) as (t & C1 & B1 & _).
    exists t. split; [exact C1|]. split; auto.
  - cbv zeta in E. destruct (s_plane s); [discriminate E|]. destruct (_ && _); [|discriminate E].
    destruct (IH tt _ true P x m' C E) as (t & C1 & B1 & _). exists t. split; [exact C1|]. split; auto.
Qed.

Lemma rust_access set T w h src dst sb db o m : convert (converters set) T w h src dst sb db = Ok o m ->
  accesses (converters set) T w h src dst sb db <> [] -> o = Success /\ w <> 0 /\ h <> 0.
Proof.
  intros E N. destruct (still_traced T _ _ _ _ _ _ (still_convert_image set w h (format_of src) _ _ (format_of dst) _ _) E) as (t & P & _ & H).
  apply P, H, N.
Qed.
Lemma c_access set T w h src dst sb db e o m : c_convert (converters set) T w h src dst sb db e = Ok o m ->
  c_accesses (converters set) T w h src dst sb db e <> [] -> o = (C_Ok, e) /\ w <> 0 /\ h <> 0.
Proof.
  intros E N. destruct (still_traced T _ _ _ _ _ _ (still_dcp set w h _ _ _ _ _ _ e) E) as (t & P & _ & H).
  apply P, H, N.
Qed.
