(** The errors that the generator script measures over all colours, and the choice it makes. *)
From Coq Require Import ZArith List Bool Lia Floats.SpecFloat.
Import ListNotations.
From Verif Require Import FloatFacts GenWeights.
Open Scope Z_scope.

(** ** Folds *)

Lemma fold_inv {A B} (P : B -> Prop) (f : B -> A -> B) l :
  (forall e x, In x l -> P e -> P (f e x)) -> forall e, P e -> P (fold_left f l e).
Proof.
  induction l as [|a l IH]; intros S e H; cbn [fold_left]; [exact H|]. apply IH.
  - intros e' x I. apply S. right. exact I.
  - apply S; [left; reflexivity|exact H].
Qed.
Lemma fold_reach {A B} (I P : B -> Prop) (f : B -> A -> B) l x0 : In x0 l ->
  (forall e x, In x l -> I e -> I (f e x)) -> (forall e x, In x l -> I e -> P e -> P (f e x)) ->
  (forall e, I e -> P (f e x0)) -> forall e, I e -> P (fold_left f l e).
Proof.
  induction l as [|a l IH]; intros X SI SP S0 e H; [destruct X|]. cbn [fold_left].
  assert (SI' : forall e x, In x l -> I e -> I (f e x)) by (intros; apply SI; [right|]; assumption).
  assert (SP' : forall e x, In x l -> I e -> P e -> P (f e x)) by (intros; apply SP; [right| |]; assumption).
  destruct X as [->|X].
  - apply (fold_inv (fun e => I e /\ P e)).
    + intros e' x Hx [Hi Hp]. split; [apply SI'|apply SP']; assumption.
    + split; [apply SI; [left; reflexivity|exact H]|apply S0, H].
  - apply IH; auto. apply SI; [left; reflexivity|exact H].
Qed.

Lemma In_bytes n : In n bytes256 <-> 0 <= n <= 255.
Proof.
  unfold bytes256. rewrite in_map_iff. split.
  - intros (k & <- & H). apply in_seq in H. lia.
  - intros H. exists (Z.to_nat n). split; [lia|]. apply in_seq. lia.
Qed.

(** ** One colour *)

(** What the script compares for one colour: three weights and three coefficients. *)
Definition item (w1 w2 w3 : Z) (c1 c2 c3 : spec_float) (r g b : Z) : spec_float :=
  SFabs (fsub (fadd (fmul c3 (of_int b)) (fadd (fmul c2 (of_int g)) (fadd (fmul c1 (of_int r)) (of_int 128))))
    (of_int (Z.shiftr (w3 * b + (w2 * g + (w1 * r + 8421375))) 16))).

Definition top_of (it : Z -> Z -> Z -> spec_float) (m : spec_float) : Prop :=
  fin m /\ (forall r g b, 0 <= r <= 255 -> 0 <= g <= 255 -> 0 <= b <= 255 -> val (it r g b) <= val m) /\
  (m = of_int 0 \/ exists r g b, 0 <= r <= 255 /\ 0 <= g <= 255 /\ 0 <= b <= 255 /\ m = it r g b).

Lemma pymax_cases a b : fin a -> fin b -> (pymax a b = a /\ val b <= val a) \/ (pymax a b = b /\ val a < val b).
Proof. intros A B. unfold pymax. rewrite ltb_val by assumption. destruct (val a <? val b) eqn:E; [right|left]; split; auto; lia. Qed.

Section Max.
  Variable (U V : Z -> Z -> Z -> spec_float).
  Hypothesis FU : forall r g b, 0 <= r <= 255 -> 0 <= g <= 255 -> 0 <= b <= 255 -> fin (U r g b).
  Hypothesis FV : forall r g b, 0 <= r <= 255 -> 0 <= g <= 255 -> 0 <= b <= 255 -> fin (V r g b).

  Variable L : list Z.
  Hypothesis IN : forall n, In n L <-> 0 <= n <= 255.

  Let from (it : Z -> Z -> Z -> spec_float) (m : spec_float) : Prop :=
    fin m /\ (m = of_int 0 \/ exists r g b, 0 <= r <= 255 /\ 0 <= g <= 255 /\ 0 <= b <= 255 /\ m = it r g b).
  Let good (e : spec_float * spec_float) : Prop := from U (fst e) /\ from V (snd e).
  Let step r g (e : spec_float * spec_float) b := (pymax (fst e) (U r g b), pymax (snd e) (V r g b)).

  Lemma from_max it m r g b : fin (it r g b) -> 0 <= r <= 255 -> 0 <= g <= 255 -> 0 <= b <= 255 ->
    from it m -> from it (pymax m (it r g b)).
  Proof.
    intros F Hr Hg Hb [M E]. destruct (pymax_cases m (it r g b) M F) as [[-> _]|[-> _]]; [split; assumption|].
    split; [exact F|right; eauto 10].
  Qed.
  Lemma step_good r g e b : 0 <= r <= 255 -> 0 <= g <= 255 -> 0 <= b <= 255 -> good e -> good (step r g e b).
  Proof. intros Hr Hg Hb [A B]. split; cbn [step fst snd]; apply from_max; auto. Qed.

  Let all := fold_left (fun e r => fold_left (fun e g => fold_left (step r g) L e) L e) L (of_int 0, of_int 0).

  Lemma zero_good : good (of_int 0, of_int 0).
  Proof. split; split; cbn [fst snd]; auto; exact I. Qed.
  Lemma blues_good r g e : 0 <= r <= 255 -> 0 <= g <= 255 -> good e -> good (fold_left (step r g) L e).
  Proof. intros Hr Hg H. apply fold_inv; [|exact H]. intros e' b Hb. apply IN in Hb. apply step_good; assumption. Qed.
  Lemma greens_good r e : 0 <= r <= 255 -> good e -> good (fold_left (fun e g => fold_left (step r g) L e) L e).
  Proof. intros Hr H. apply fold_inv; [|exact H]. intros e' g Hg. apply IN in Hg. apply blues_good; assumption. Qed.
  Lemma all_good : good all.
  Proof. apply fold_inv; [|exact zero_good]. intros e r Hr. apply IN in Hr. apply greens_good, Hr. Qed.

  Let above r g b (e : spec_float * spec_float) : Prop := val (U r g b) <= val (fst e) /\ val (V r g b) <= val (snd e).
  Lemma step_above r g b e r' g' b' : 0 <= r' <= 255 -> 0 <= g' <= 255 -> 0 <= b' <= 255 -> good e ->
    above r g b e -> above r g b (step r' g' e b').
  Proof.
    intros Hr Hg Hb [[A _] [B _]] [P Q]. split; cbn [step fst snd].
    - destruct (pymax_cases _ _ A (FU r' g' b' Hr Hg Hb)) as [[-> ?]|[-> ?]]; lia.
    - destruct (pymax_cases _ _ B (FV r' g' b' Hr Hg Hb)) as [[-> ?]|[-> ?]]; lia.
  Qed.
  Lemma step_reach r g b e : 0 <= r <= 255 -> 0 <= g <= 255 -> 0 <= b <= 255 -> good e -> above r g b (step r g e b).
  Proof.
    intros Hr Hg Hb [[A _] [B _]]. split; cbn [step fst snd].
    - destruct (pymax_cases _ _ A (FU r g b Hr Hg Hb)) as [[-> ?]|[-> ?]]; lia.
    - destruct (pymax_cases _ _ B (FV r g b Hr Hg Hb)) as [[-> ?]|[-> ?]]; lia.
  Qed.
  Lemma all_above r g b : 0 <= r <= 255 -> 0 <= g <= 255 -> 0 <= b <= 255 -> above r g b all.
  Proof.
    intros Hr Hg Hb. apply (fold_reach good (above r g b) _ L r); [apply IN, Hr| | | |exact zero_good].
    - intros e r' Hr' G. apply IN in Hr'. apply greens_good; assumption.
    - intros e r' Hr' G Q. apply IN in Hr'. apply (fold_inv (fun e => good e /\ above r g b e)); [|split; assumption].
      intros e2 g' Hg' [G2 Q2]. apply IN in Hg'. split; [apply blues_good; assumption|].
      apply (fold_inv (fun e => good e /\ above r g b e)); [|split; assumption].
      intros e3 b' Hb' [G3 Q3]. apply IN in Hb'. split; [apply step_good; assumption|]. apply step_above; assumption.
    - intros e G. apply (fold_reach good (above r g b) _ L g); [apply IN, Hg| | | |exact G].
      + intros e' g' Hg' G'. apply IN in Hg'. apply blues_good; assumption.
      + intros e2 g' Hg' G2 Q2. apply IN in Hg'.
        apply (fold_inv (fun e => good e /\ above r g b e)); [|split; assumption].
        intros e3 b' Hb' [G3 Q3]. apply IN in Hb'. split; [apply step_good; assumption|]. apply step_above; assumption.
      + intros e2 G2. apply (fold_reach good (above r g b) _ L b); [apply IN, Hb| | | |exact G2].
        * intros e3 b' Hb' G3. apply IN in Hb'. apply step_good; assumption.
        * intros e3 b' Hb' G3 Q3. apply IN in Hb'. apply step_above; assumption.
        * intros e3 G3. apply step_reach; assumption.
  Qed.
  Lemma all_top : top_of U (fst all) /\ top_of V (snd all).
  Proof.
    destruct all_good as [[A1 A2] [B1 B2]]. split; split; try assumption; split; try assumption;
      intros r g b Hr Hg Hb; apply (all_above r g b Hr Hg Hb).
  Qed.
End Max.

Definition finite_items (it : Z -> Z -> Z -> spec_float) : Prop :=
  forall r g b, 0 <= r <= 255 -> 0 <= g <= 255 -> 0 <= b <= 255 -> fin (it r g b).

Lemma max_uv yr yg zg c1 c2 c3 d1 d2 d3 :
  let yb := - (yr + yg) in let zb := - (yb + zg) in
  finite_items (item yr yg yb c1 c2 c3) -> finite_items (item yb zg zb d1 d2 d3) ->
  let m := max_uv_error yr yg zg c1 c2 c3 d1 d2 d3 in
  top_of (item yr yg yb c1 c2 c3) (fst m) /\ top_of (item yb zg zb d1 d2 d3) (snd m).
Proof. intros yb zb FU FV. exact (all_top _ _ FU FV bytes256 In_bytes). Qed.

(** ** Distance from the exact error *)

Definition unit_ : Z := 2 ^ 1074.
Definition tiny : Z := 2 ^ 1031.
Lemma tiny_small : 0 < tiny /\ 1000000 * tiny <= unit_ /\ 2 ^ 1084 = 1024 * unit_.
Proof. vm_compute. repeat split; congruence. Qed.

Definition small_int (f : spec_float) (n : Z) : bool :=
  match f with
  | S754_zero _ => n =? 0
  | S754_finite s m e => (-60 <=? e) && (fexp 53 1024 (Z.pos (digits2_pos m) + e) =? e) && (cond_Zopp s (Z.pos m) * 2 ^ (e + 60) =? n * 2 ^ 60)
  | _ => false
  end.
Lemma small_ints : forallb (fun n => small_int (of_int n) n) bytes256 = true.
Proof. vm_compute. reflexivity. Qed.

Definition low (f : spec_float) : Prop := match f with S754_finite _ _ e => -60 <= e | _ => True end.

Lemma byte_float n : 0 <= n <= 255 -> fin (of_int n) /\ low (of_int n) /\ val (of_int n) = n * unit_.
Proof.
  intros H. pose proof (proj1 (forallb_forall _ _) small_ints n (proj2 (In_bytes n) H)) as S. cbv beta in S.
  destruct (of_int n) as [s|s| |s m e]; cbn [small_int] in S; try discriminate.
  - apply Z.eqb_eq in S. subst n. cbn [fin low val]. rewrite Z.mul_0_l. auto.
  - apply andb_prop in S as [S S3]. apply andb_prop in S as [S1 S2].
    apply Z.leb_le in S1. apply Z.eqb_eq in S2. apply Z.eqb_eq in S3. cbn [fin low val]. split; [exact S2|]. split; [exact S1|].
    unfold unit_. replace (e + 1074) with (e + 60 + 1014) by lia. rewrite (Z.pow_add_r 2 (e + 60)) by lia.
    change 1074 with (60 + 1014). rewrite (Z.pow_add_r 2 60) by lia. rewrite !Z.mul_assoc, S3. reflexivity.
Qed.

(** A coefficient is between -1/2 and 1/2. *)
Definition coef (c : spec_float) : Prop := fin c /\ low c /\ 2 * Z.abs (val c) <= unit_.

Lemma coef_times c n : coef c -> 0 <= n <= 255 ->
  fin (fmul c (of_int n)) /\ Z.abs (val (fmul c (of_int n)) - val c * n) <= tiny.
Proof.
  intros (F & L & B) H. destruct (byte_float n H) as (FN & LN & VN). pose proof tiny_small as (T0 & T1 & T2).
  assert (U0 : 0 < unit_) by lia.
  destruct (mul_near c (of_int n) F FN) as [R1 R2].
  - rewrite VN, !Z.abs_mul, (Z.abs_eq n), (Z.abs_eq unit_) by lia.
    change 2158 with (1084 + 1074). rewrite (Z.pow_add_r 2 1084 1074) by lia. fold unit_. rewrite Z.mul_assoc.
    apply Z.mul_lt_mono_pos_r; [exact U0|]. rewrite T2.
    assert (Z.abs (val c) * n <= Z.abs (val c) * 255) by (apply Z.mul_le_mono_nonneg_l; lia). lia.
  - intros s m e s' m' e' -> E'. rewrite E' in LN. cbn [low] in *. lia.
  - split; [exact R1|]. rewrite VN in R2. fold unit_ in R2. fold (fmul c (of_int n)) in R2.
    replace (unit_ * val (fmul c (of_int n)) - val c * (n * unit_)) with (unit_ * (val (fmul c (of_int n)) - val c * n)) in R2 by ring.
    rewrite Z.abs_mul, (Z.abs_eq unit_) in R2 by lia. change 2105 with (1074 + 1031) in R2.
    rewrite (Z.pow_add_r 2 1074 1031) in R2 by lia. fold unit_ tiny in R2. apply (Z.mul_le_mono_pos_l _ _ unit_ U0). exact R2.
Qed.

Lemma int_near n : Z.abs n <= 1000 -> fin (of_int n) /\ Z.abs (val (of_int n) - n * unit_) <= tiny.
Proof.
  intros H. pose proof tiny_small as (T0 & T1 & T2). apply (normalize_near n 0 false); [lia|].
  change (2 ^ (0 + 1074)) with unit_. rewrite T2. apply Z.mul_lt_mono_pos_r; lia.
Qed.

Lemma abs_near a b : Z.abs (Z.abs a - Z.abs b) <= Z.abs (a - b).
Proof. lia. Qed.

(** The weighted sum of a colour, in units of 2^-1074, less the code chosen for it. *)
Definition exact_err (w1 w2 w3 : Z) (c1 c2 c3 : spec_float) (r g b : Z) : Z :=
  val c1 * r + val c2 * g + val c3 * b + (128 - (w1 * r + w2 * g + w3 * b + 8421375) / 65536) * unit_.

Lemma item_near w1 w2 w3 c1 c2 c3 r g b : coef c1 -> coef c2 -> coef c3 ->
  Z.abs w1 <= 32768 -> Z.abs w2 <= 32768 -> Z.abs w3 <= 32768 ->
  0 <= r <= 255 -> 0 <= g <= 255 -> 0 <= b <= 255 ->
  fin (item w1 w2 w3 c1 c2 c3 r g b) /\
  Z.abs (val (item w1 w2 w3 c1 c2 c3 r g b) - Z.abs (exact_err w1 w2 w3 c1 c2 c3 r g b)) <= 8 * tiny.
Proof.
  intros C1 C2 C3 W1 W2 W3 Hr Hg Hb. pose proof tiny_small as (T0 & T1 & T2).
  destruct (coef_times c1 r C1 Hr) as [F1 N1]. destruct (coef_times c2 g C2 Hg) as [F2 N2]. destruct (coef_times c3 b C3 Hb) as [F3 N3].
  destruct (byte_float 128 ltac:(lia)) as (F128 & _ & V128).
  assert (SM : forall c n, coef c -> 0 <= n <= 255 -> 2 * Z.abs (val c * n) <= 255 * unit_).
  { intros c n (_ & _ & B) H. rewrite Z.abs_mul, (Z.abs_eq n) by lia.
    assert (Z.abs (val c) * n <= Z.abs (val c) * 255) by (apply Z.mul_le_mono_nonneg_l; lia). lia. }
  pose proof (SM c1 r C1 Hr) as S1. pose proof (SM c2 g C2 Hg) as S2. pose proof (SM c3 b C3 Hb) as S3. clear SM.
  unfold item, exact_err. rewrite Z.shiftr_div_pow2 by lia. change (2 ^ 16) with 65536.
  replace (w3 * b + (w2 * g + (w1 * r + 8421375))) with (w1 * r + w2 * g + w3 * b + 8421375) by ring.
  assert (UB : forall w n, Z.abs w <= 32768 -> 0 <= n <= 255 -> Z.abs (w * n) <= 32768 * 255).
  { clear. intros w n W H. rewrite Z.abs_mul, (Z.abs_eq n) by lia. apply Z.mul_le_mono_nonneg; lia. }
  pose proof (UB w1 r W1 Hr) as U1. pose proof (UB w2 g W2 Hg) as U2. pose proof (UB w3 b W3 Hb) as U3. clear UB.
  set (q := (w1 * r + w2 * g + w3 * b + 8421375) / 65536).
  assert (Q : Z.abs q <= 512).
  { unfold q. rewrite Z.abs_le in *. set (s := w1 * r + w2 * g + w3 * b + 8421375).
    assert (SB : -33489825 <= s <= 33489825) by (unfold s; clear - U1 U2 U3; lia). clearbody s. clear - SB. Z.div_mod_to_equations. lia. }
  clearbody q. destruct (int_near q ltac:(lia)) as [FQ NQ].
  set (p1 := val c1 * r) in *. set (p2 := val c2 * g) in *. set (p3 := val c3 * b) in *. clearbody p1 p2 p3.
  assert (BIG : 2 ^ 1084 = 1024 * unit_) by exact T2. clear T2.
  assert (LT : forall x, - (1023 * unit_) <= x <= 1023 * unit_ -> Z.abs x < 2 ^ 1084) by (intros x Hx; rewrite BIG; clear - Hx T0 T1; lia).
  clear BIG C1 C2 C3 W1 W2 W3 U1 U2 U3.
  assert (S1' : - (255 * unit_) <= 2 * p1 <= 255 * unit_) by (clear - S1; lia). assert (S2' : - (255 * unit_) <= 2 * p2 <= 255 * unit_) by (clear - S2; lia).
  assert (S3' : - (255 * unit_) <= 2 * p3 <= 255 * unit_) by (clear - S3; lia). clear S1 S2 S3. rename S1' into S1, S2' into S2, S3' into S3.
  rewrite !Z.abs_le in N1, N2, N3, Q, NQ.
  assert (QU : - (512 * unit_) <= q * unit_ <= 512 * unit_) by (split; [rewrite <- Z.mul_opp_l|]; apply Z.mul_le_mono_nonneg_r; lia).
  set (qu := q * unit_) in *. set (v1 := val (fmul c1 (of_int r))) in *. set (v2 := val (fmul c2 (of_int g))) in *. set (v3 := val (fmul c3 (of_int b))) in *.
  destruct (add_near (fmul c1 (of_int r)) (of_int 128) F1 F128) as [G1 A1]; [apply LT; rewrite V128; fold v1; clearbody v1; clear - N1 S1 T0 T1; lia|].
  fold (fadd (fmul c1 (of_int r)) (of_int 128)) in G1, A1.
  set (s1 := fadd (fmul c1 (of_int r)) (of_int 128)) in *. rewrite V128, Z.abs_le in A1. fold tiny v1 in A1.
  destruct (add_near (fmul c2 (of_int g)) s1 F2 G1) as [G2 A2]; [apply LT; fold v2; clearbody v1 v2; generalize dependent (val s1); intros z1 A1; clear - N1 S1 N2 S2 T0 T1 A1; lia|].
  fold (fadd (fmul c2 (of_int g)) s1) in G2, A2.
  set (s2 := fadd (fmul c2 (of_int g)) s1) in *. rewrite Z.abs_le in A2. fold tiny v2 in A2.
  destruct (add_near (fmul c3 (of_int b)) s2 F3 G2) as [G3 A3]; [apply LT; fold v3; clearbody v1 v2 v3; generalize dependent (val s2); generalize dependent (val s1); intros z1 A1 z2 A2; clear - N1 S1 N2 S2 N3 S3 T0 T1 A1 A2; lia|].
  fold (fadd (fmul c3 (of_int b)) s2) in G3, A3.
  set (s3 := fadd (fmul c3 (of_int b)) s2) in *. rewrite Z.abs_le in A3. fold tiny v3 in A3.
  assert (N4 : - (6 * tiny) <= val s3 - (p1 + p2 + p3 + 128 * unit_) <= 6 * tiny).
  { clearbody v1 v2 v3. generalize dependent (val s3). generalize dependent (val s2). generalize dependent (val s1). intros z1 A1 z2 A2 z3 A3.
    clear - N1 N2 N3 A1 A2 A3. lia. }
  destruct (sub_near s3 (of_int q) G3 FQ) as [G4 A4].
  { apply LT. generalize dependent (val s3). generalize dependent (val (of_int q)). intros zq NQ z3 A3 N4. clear - S1 S2 S3 NQ N4 QU T0 T1. lia. }
  fold (fsub s3 (of_int q)) in G4, A4. rewrite Z.abs_le in A4. fold tiny in A4.
  destruct (abs_val _ G4) as [G5 ->]. split; [exact G5|].
  assert (N5 : Z.abs (val (fsub s3 (of_int q)) - (p1 + p2 + p3 + (128 - q) * unit_)) <= 8 * tiny).
  { rewrite Z.mul_sub_distr_r. fold qu. apply Z.abs_le. generalize dependent (val (fsub s3 (of_int q))). generalize dependent (val s3).
    generalize dependent (val (of_int q)). intros zq NQ z3 A3 N4 z4 A4. clear - NQ N4 A4. lia. }
  eapply Z.le_trans; [apply abs_near|exact N5].
Qed.

(** ** The full range spaces *)

(** A coefficient in units of 2^-60. *)
Definition in60 (f : spec_float) : Z := match f with S754_finite s m e => cond_Zopp s (Z.pos m) * 2 ^ (e + 60) | _ => 0 end.
Definition is_coef (f : spec_float) : bool :=
  match f with
  | S754_finite s m e => (-60 <=? e) && (fexp 53 1024 (Z.pos (digits2_pos m) + e) =? e) && (2 * Z.abs (in60 f) <=? 2 ^ 60)
  | _ => false
  end.
Definition unit60 : Z := 2 ^ 1014.
Lemma unit_60 : unit_ = 2 ^ 60 * unit60.
Proof. unfold unit_, unit60. rewrite <- Z.pow_add_r by lia. reflexivity. Qed.
Lemma unit60_big : 0 < unit60 /\ 16 * tiny <= 2 ^ 22 * unit60.
Proof. vm_compute. split; congruence. Qed.
Lemma val_60 f : is_coef f = true -> coef f /\ val f = in60 f * unit60.
Proof.
  destruct f as [s|s| |s m e]; cbn [is_coef]; try discriminate. intros H. apply andb_prop in H as [H H3]. apply andb_prop in H as [H1 H2].
  apply Z.leb_le in H1. apply Z.eqb_eq in H2. apply Z.leb_le in H3. pose proof unit60_big as [P _].
  assert (E : val (S754_finite s m e) = in60 (S754_finite s m e) * unit60).
  { cbn [val in60]. unfold unit60. replace (e + 1074) with (e + 60 + 1014) by lia. rewrite (Z.pow_add_r 2 (e + 60)) by lia. ring. }
  split; [|exact E]. split; [exact H2|]. split; [exact H1|]. rewrite E, Z.abs_mul, (Z.abs_eq unit60), unit_60, Z.mul_assoc by lia.
  apply Z.mul_le_mono_nonneg_r; lia.
Qed.

(** The exact error in units of 2^-60. *)
Definition err60 (w1 w2 w3 a1 a2 a3 r g b : Z) : Z :=
  a1 * r + a2 * g + a3 * b + (128 - (w1 * r + w2 * g + w3 * b + 8421375) / 65536) * 2 ^ 60.

Lemma item_60 w1 w2 w3 c1 c2 c3 : is_coef c1 && is_coef c2 && is_coef c3 && (Z.abs w1 <=? 32768) && (Z.abs w2 <=? 32768) && (Z.abs w3 <=? 32768) = true ->
  finite_items (item w1 w2 w3 c1 c2 c3) /\
  forall r g b, 0 <= r <= 255 -> 0 <= g <= 255 -> 0 <= b <= 255 ->
  let e := Z.abs (err60 w1 w2 w3 (in60 c1) (in60 c2) (in60 c3) r g b) in
  (e - 2 ^ 21) * unit60 <= val (item w1 w2 w3 c1 c2 c3 r g b) <= (e + 2 ^ 21) * unit60.
Proof.
  intros H. do 5 (apply andb_prop in H as [H ?]).
  repeat match goal with H : (_ <=? _) = true |- _ => apply Z.leb_le in H end.
  destruct (val_60 c1) as [K1 V1]; [assumption|]. destruct (val_60 c2) as [K2 V2]; [assumption|]. destruct (val_60 c3) as [K3 V3]; [assumption|].
  split; [intros r g b Hr Hg Hb; apply item_near; assumption|].
  intros r g b Hr Hg Hb e. destruct (item_near w1 w2 w3 c1 c2 c3 r g b) as [_ N]; try assumption.
  replace (exact_err w1 w2 w3 c1 c2 c3 r g b) with (err60 w1 w2 w3 (in60 c1) (in60 c2) (in60 c3) r g b * unit60) in N.
  2:{ unfold exact_err, err60. rewrite V1, V2, V3, unit_60. ring. }
  pose proof unit60_big as [P T]. rewrite Z.abs_mul, (Z.abs_eq unit60) in N by lia. fold e in N. rewrite Z.abs_le in N.
  rewrite Z.mul_sub_distr_r, Z.mul_add_distr_r. set (x := e * unit60) in *. set (v := val _) in *. clearbody x v.
  change (2 ^ 22) with (2 * 2 ^ 21) in T. set (y := 2 ^ 21) in *. clearbody y. clear - N T. split; nia.
Qed.

(** No colour is off by more than [lim]. *)
Definition within_limit (lim : Z) (it : Z -> Z -> Z -> spec_float) : Prop :=
  forall r g b, 0 <= r <= 255 -> 0 <= g <= 255 -> 0 <= b <= 255 -> val (it r g b) <= lim.

Lemma top_limit it m lim : 0 <= lim -> top_of it m -> within_limit lim it -> val m <= lim.
Proof. intros L (_ & _ & [->|(r & g & b & Hr & Hg & Hb & ->)]) W; [exact L|apply W; assumption]. Qed.
Lemma pymax_val a b : fin a -> fin b -> fin (pymax a b) /\ val (pymax a b) = Z.max (val a) (val b).
Proof. intros A B. destruct (pymax_cases a b A B) as [[-> ?]|[-> ?]]; (split; [assumption|lia]). Qed.

(** 601: the second correction has the smaller error, since 32768 + 255 is more than any colour is
    off with it, and less than the colour (0, 163, 215) is off with the first one. *)
Definition f601 : forward := forward_coefs M601 true.
Definition f709 : forward := forward_coefs M709 true.
Definition bound60 (n : Z) : Z := n * 2 ^ 44.

Lemma err_601_u r g b : 0 <= r <= 255 -> 0 <= g <= 255 -> 0 <= b <= 255 ->
  Z.abs (err60 (-11058) (-21709) 32767 (in60 (br f601)) (in60 (bg f601)) (in60 (bb f601)) r g b) <= bound60 33024.
Proof.
  intros Hr Hg Hb. unfold err60, bound60. set (q := _ / 65536). assert (Q : 65536 * q <= -11058 * r + -21709 * g + 32767 * b + 8421375 < 65536 * q + 65536)
    by (unfold q; Z.div_mod_to_equations; lia). clearbody q.
  repeat match goal with |- context [in60 ?f] => let v := eval vm_compute in (in60 f) in change (in60 f) with v end.
  change (2 ^ 60) with 1152921504606846976. change (2 ^ 44) with 17592186044416. rewrite Z.abs_le. lia.
Qed.
Lemma err_601_v r g b : 0 <= r <= 255 -> 0 <= g <= 255 -> 0 <= b <= 255 ->
  Z.abs (err60 32767 (-27439) (-5328) (in60 (cr f601)) (in60 (cg f601)) (in60 (cb f601)) r g b) <= bound60 33024.
Proof.
  intros Hr Hg Hb. unfold err60, bound60. set (q := _ / 65536). assert (Q : 65536 * q <= 32767 * r + -27439 * g + -5328 * b + 8421375 < 65536 * q + 65536)
    by (unfold q; Z.div_mod_to_equations; lia). clearbody q.
  repeat match goal with |- context [in60 ?f] => let v := eval vm_compute in (in60 f) in change (in60 f) with v end.
  change (2 ^ 60) with 1152921504606846976. change (2 ^ 44) with 17592186044416. rewrite Z.abs_le. lia.
Qed.

Definition coefs_ok (w1 w2 w3 : Z) (c1 c2 c3 : spec_float) : bool :=
  is_coef c1 && is_coef c2 && is_coef c3 && (Z.abs w1 <=? 32768) && (Z.abs w2 <=? 32768) && (Z.abs w3 <=? 32768).

Section Choice.
  Variable (f : forward) (yr yg zg d : Z).
  Let yb := - (yr + yg + d).
  Let zb := - (yb + zg).
  Let eA r g b := Z.abs (err60 (yr + d) yg yb (in60 (br f)) (in60 (bg f)) (in60 (bb f)) r g b).
  Let eB r g b := Z.abs (err60 yr (yg + d) yb (in60 (br f)) (in60 (bg f)) (in60 (bb f)) r g b).
  Let eV r g b := Z.abs (err60 yb zg zb (in60 (cr f)) (in60 (cg f)) (in60 (cb f)) r g b).
  Hypothesis OKA : coefs_ok (yr + d) yg yb (br f) (bg f) (bb f) = true.
  Hypothesis OKB : coefs_ok yr (yg + d) yb (br f) (bg f) (bb f) = true.
  Hypothesis OKV : coefs_ok yb zg zb (cr f) (cg f) (cb f) = true.
  Let U1 := item (yr + d) yg yb (br f) (bg f) (bb f).
  Let U2 := item yr (yg + d) yb (br f) (bg f) (bb f).
  Let V := item yb zg zb (cr f) (cg f) (cb f).

  Lemma first_better_tops : exists u1 v1 u2 v2, top_of U1 u1 /\ top_of V v1 /\ top_of U2 u2 /\ top_of V v2 /\
    first_better f yr yg zg d = (Z.max (val u1) (val v1) <=? Z.max (val u2) (val v2)).
  Proof.
    destruct (item_60 _ _ _ _ _ _ OKA) as [FA _]. destruct (item_60 _ _ _ _ _ _ OKB) as [FB _]. destruct (item_60 _ _ _ _ _ _ OKV) as [FV _].
    pose proof (max_uv (yr + d) yg zg (br f) (bg f) (bb f) (cr f) (cg f) (cb f)) as M1.
    pose proof (max_uv yr (yg + d) zg (br f) (bg f) (bb f) (cr f) (cg f) (cb f)) as M2. cbv zeta in M1, M2.
    replace (- (yr + d + yg)) with yb in M1 by (unfold yb; lia). replace (- (yr + (yg + d))) with yb in M2 by (unfold yb; lia).
    fold zb in M1, M2. specialize (M1 FA FV). specialize (M2 FB FV). fold U1 V in M1. fold U2 V in M2. unfold first_better.
    destruct (max_uv_error (yr + d) yg zg (br f) (bg f) (bb f) (cr f) (cg f) (cb f)) as [u1 v1].
    destruct (max_uv_error yr (yg + d) zg (br f) (bg f) (bb f) (cr f) (cg f) (cb f)) as [u2 v2]. cbn [fst snd] in *.
    exists u1, v1, u2, v2. destruct M1 as [T1 T2], M2 as [T3 T4]. split; [exact T1|]. split; [exact T2|]. split; [exact T3|]. split; [exact T4|].
    destruct (pymax_val u1 v1 (proj1 T1) (proj1 T2)) as [P1 <-]. destruct (pymax_val u2 v2 (proj1 T3) (proj1 T4)) as [P2 <-].
    apply leb_val; assumption.
  Qed.

  Lemma second_chosen lim r0 g0 b0 : 0 <= lim ->
    (forall r g b, 0 <= r <= 255 -> 0 <= g <= 255 -> 0 <= b <= 255 -> eB r g b <= lim /\ eV r g b <= lim) ->
    0 <= r0 <= 255 -> 0 <= g0 <= 255 -> 0 <= b0 <= 255 -> lim + 2 ^ 22 < eA r0 g0 b0 -> first_better f yr yg zg d = false.
  Proof.
    intros L W Hr Hg Hb X. pose proof unit60_big as [P _].
    destruct (item_60 _ _ _ _ _ _ OKA) as [_ NA]. destruct (item_60 _ _ _ _ _ _ OKB) as [_ NB]. destruct (item_60 _ _ _ _ _ _ OKV) as [_ NV].
    destruct first_better_tops as (u1 & v1 & u2 & v2 & T1 & T2 & T3 & T4 & ->). apply Z.leb_gt.
    set (top := (lim + 2 ^ 21) * unit60).
    assert (TP : 0 <= top) by (unfold top; apply Z.mul_nonneg_nonneg; [change (2 ^ 21) with 2097152|]; lia).
    assert (B2 : val u2 <= top).
    { apply (top_limit U2 u2 top TP T3). intros r g b Gr Gg Gb. destruct (W r g b Gr Gg Gb) as [W1 _]. destruct (NB r g b Gr Gg Gb) as [_ N].
      eapply Z.le_trans; [exact N|]. unfold top. apply Z.mul_le_mono_nonneg_r; [lia|]. fold (eB r g b). lia. }
    assert (B4 : val v2 <= top).
    { apply (top_limit V v2 top TP T4). intros r g b Gr Gg Gb. destruct (W r g b Gr Gg Gb) as [_ W1]. destruct (NV r g b Gr Gg Gb) as [_ N].
      eapply Z.le_trans; [exact N|]. unfold top. apply Z.mul_le_mono_nonneg_r; [lia|]. fold (eV r g b). lia. }
    destruct T1 as (_ & A1 & _). specialize (A1 r0 g0 b0 Hr Hg Hb). destruct (NA r0 g0 b0 Hr Hg Hb) as [N _]. fold (eA r0 g0 b0) in N. fold U1 in N.
    assert (top < (eA r0 g0 b0 - 2 ^ 21) * unit60).
    { unfold top. apply Z.mul_lt_mono_pos_r; [lia|]. change (2 ^ 22) with (2 ^ 21 + 2 ^ 21) in X. lia. }
    lia.
  Qed.

  Lemma first_chosen lim r0 g0 b0 : 0 <= lim ->
    (forall r g b, 0 <= r <= 255 -> 0 <= g <= 255 -> 0 <= b <= 255 -> eA r g b <= lim) ->
    0 <= r0 <= 255 -> 0 <= g0 <= 255 -> 0 <= b0 <= 255 -> lim + 2 ^ 22 < eB r0 g0 b0 -> first_better f yr yg zg d = true.
  Proof.
    intros L W Hr Hg Hb X. pose proof unit60_big as [P _].
    destruct (item_60 _ _ _ _ _ _ OKA) as [_ NA]. destruct (item_60 _ _ _ _ _ _ OKB) as [_ NB].
    destruct first_better_tops as (u1 & v1 & u2 & v2 & T1 & T2 & T3 & T4 & ->). apply Z.leb_le.
    set (top := (lim + 2 ^ 21) * unit60).
    assert (TP : 0 <= top) by (unfold top; apply Z.mul_nonneg_nonneg; [change (2 ^ 21) with 2097152|]; lia).
    assert (B1 : val u1 <= top).
    { apply (top_limit U1 u1 top TP T1). intros r g b Gr Gg Gb. pose proof (W r g b Gr Gg Gb) as W1. destruct (NA r g b Gr Gg Gb) as [_ N].
      eapply Z.le_trans; [exact N|]. unfold top. apply Z.mul_le_mono_nonneg_r; [lia|]. fold (eA r g b). lia. }
    destruct T3 as (_ & A3 & _). specialize (A3 r0 g0 b0 Hr Hg Hb). destruct (NB r0 g0 b0 Hr Hg Hb) as [N _]. fold (eB r0 g0 b0) in N. fold U2 in N.
    assert (top < (eB r0 g0 b0 - 2 ^ 21) * unit60).
    { unfold top. apply Z.mul_lt_mono_pos_r; [lia|]. change (2 ^ 22) with (2 ^ 21 + 2 ^ 21) in X. lia. }
    assert (VV : val v1 <= Z.max (val u2) (val v2)).
    { destruct T4 as (F4 & A4 & _), T2 as (_ & _ & [->|(r & g & b & Gr & Gg & Gb & ->)]).
      - change (val (of_int 0)) with 0. lia.
      - specialize (A4 r g b Gr Gg Gb). lia. }
    lia.
  Qed.
End Choice.

Lemma choice_601 : first_better f601 (-11058) (-21710) (-27439) 1 = false.
Proof.
  refine (second_chosen f601 (-11058) (-21710) (-27439) 1 _ _ _ (bound60 33024) 0 163 215 _ _ _ _ _ _).
  - vm_compute. reflexivity.
  - vm_compute. reflexivity.
  - vm_compute. reflexivity.
  - vm_compute. congruence.
  - intros r g b Hr Hg Hb. split; [exact (err_601_u r g b Hr Hg Hb)|exact (err_601_v r g b Hr Hg Hb)].
  - lia.
  - lia.
  - lia.
  - vm_compute. reflexivity.
Qed.

(** 709: with the first correction no colour is off by 32940 or more; with the second one, the
    colour (4, 244, 0) is. *)
Definition off709 (r g b : Z) : Z :=
  let d := -7508 * r + -25259 * g + 32767 * b in 10000 * (d - 65536 * ((d + 32767) / 65536)) - (5975 * r + 4025 * g - 10000 * b).
Definition bright_blue (r g : Z) : bool :=
  if (-7508 * r + -25259 * g - 256) mod 32768 <? 32602 then true else
  forallb (fun k => Z.abs (off709 r g (k + 172)) <=? 329400000) (map Z.of_nat (seq 0 84)).
Definition dark_blue (r g : Z) : bool :=
  if 165 <? (-7508 * r + -25259 * g) mod 32768 then true else
  forallb (fun b => Z.abs (off709 r g b) <=? 329400000) (map Z.of_nat (seq 0 84)).
Definition rectangle (P : Z -> Z -> bool) (r0 nr g0 ng : Z) : bool :=
  forallb (fun r => forallb (fun g => P (r0 + r) (g0 + g)) (map Z.of_nat (seq 0 (Z.to_nat ng)))) (map Z.of_nat (seq 0 (Z.to_nat nr))).
Lemma sweep_bright : rectangle bright_blue 0 140 0 208 = true.
Proof. vm_compute. reflexivity. Qed.
Lemma sweep_dark : rectangle dark_blue 115 141 48 208 = true.
Proof. vm_compute. reflexivity. Qed.

Lemma in_seq84 k : 0 <= k < 84 -> In k (map Z.of_nat (seq 0 84)).
Proof. intros H. apply in_map_iff. exists (Z.to_nat k). split; [lia|]. apply in_seq. lia. Qed.
Lemma in_rectangle P r0 nr g0 ng r g : rectangle P r0 nr g0 ng = true -> r0 <= r < r0 + nr -> g0 <= g < g0 + ng -> P r g = true.
Proof.
  intros H Hr Hg. unfold rectangle in H. rewrite forallb_forall in H.
  assert (I : In (r - r0) (map Z.of_nat (seq 0 (Z.to_nat nr)))) by (apply in_map_iff; exists (Z.to_nat (r - r0)); split; [lia|apply in_seq; lia]).
  specialize (H _ I). cbv beta in H. rewrite forallb_forall in H.
  assert (J : In (g - g0) (map Z.of_nat (seq 0 (Z.to_nat ng)))) by (apply in_map_iff; exists (Z.to_nat (g - g0)); split; [lia|apply in_seq; lia]).
  specialize (H _ J). cbv beta in H. replace (r0 + (r - r0)) with r in H by lia. replace (g0 + (g - g0)) with g in H by lia. exact H.
Qed.

Lemma window_bright n x : 1 <= x <= 32685 -> 32685 < 32768 * n + x <= 32768 -> False.
Proof. lia. Qed.
Lemma window_dark n x : 83 <= x <= 32767 -> -32767 <= 32768 * n + x < -32685 -> False.
Proof. lia. Qed.

Lemma off709_limit r g b : 0 <= r <= 255 -> 0 <= g <= 255 -> 0 <= b <= 255 -> Z.abs (off709 r g b) <= 329400000.
Proof.
  intros Hr Hg Hb. destruct (Z.le_gt_cases (Z.abs (off709 r g b)) 329400000) as [L|L]; [exact L|exfalso].
  unfold off709 in L. set (d := -7508 * r + -25259 * g + 32767 * b) in L. set (q := (d + 32767) / 65536) in L.
  assert (Q : 65536 * q <= d + 32767 < 65536 * q + 65536) by (unfold q; clear; Z.div_mod_to_equations; lia).
  assert (C : (5975 * r + 4025 * g - 10000 * b < -1720000 /\ 32685 < d - 65536 * q) \/
              (1720000 < 5975 * r + 4025 * g - 10000 * b /\ d - 65536 * q < -32685)).
  { clearbody q. clear - L Q Hr Hg Hb. clearbody d. lia. }
  destruct C as [[C1 C2]|[C1 C2]].
  - pose proof (in_rectangle _ _ _ _ _ r g sweep_bright ltac:(clear - C1 Hr Hg Hb; lia) ltac:(clear - C1 Hr Hg Hb; lia)) as S. unfold bright_blue in S.
    destruct (_ <? 32602) eqn:E.
    + apply Z.ltb_lt in E. pose proof (Z.div_mod (-7508 * r + -25259 * g - 256) 32768 ltac:(lia)) as D.
      pose proof (Z.mod_pos_bound (-7508 * r + -25259 * g - 256) 32768 ltac:(lia)) as M.
      set (t := (-7508 * r + -25259 * g - 256) mod 32768) in *. set (k := (-7508 * r + -25259 * g - 256) / 32768) in *. clearbody t k.
      assert (172 <= b) by (clear - C1 Hr Hg; lia). apply (window_bright (k + b - 2 * q) (t + 256 - b)); [clear - E M H Hb; lia|].
      replace (32768 * (k + b - 2 * q) + (t + 256 - b)) with (d - 65536 * q) by (unfold d; clear - D; lia). clear - C2 Q. lia.
    + rewrite forallb_forall in S. specialize (S (b - 172) (in_seq84 _ ltac:(clear - C1 Hr Hg Hb; lia))). cbv beta in S. apply Z.leb_le in S.
      replace (b - 172 + 172) with b in S by lia. unfold off709 in S. fold d in S. fold q in S. exact (Z.lt_irrefl _ (Z.lt_le_trans _ _ _ L S)).
  - pose proof (in_rectangle _ _ _ _ _ r g sweep_dark ltac:(clear - C1 Hr Hg Hb; lia) ltac:(clear - C1 Hr Hg Hb; lia)) as S. unfold dark_blue in S.
    destruct (165 <? _) eqn:E.
    + apply Z.ltb_lt in E. pose proof (Z.div_mod (-7508 * r + -25259 * g) 32768 ltac:(lia)) as D.
      pose proof (Z.mod_pos_bound (-7508 * r + -25259 * g) 32768 ltac:(lia)) as M.
      set (t := (-7508 * r + -25259 * g) mod 32768) in *. set (k := (-7508 * r + -25259 * g) / 32768) in *. clearbody t k.
      assert (b <= 83) by (clear - C1 Hr Hg; lia). apply (window_dark (k + b - 2 * q) (t - b)); [clear - E M H Hb; lia|].
      replace (32768 * (k + b - 2 * q) + (t - b)) with (d - 65536 * q) by (unfold d; clear - D; lia). clear - C2 Q. lia.
    + rewrite forallb_forall in S. specialize (S b (in_seq84 _ ltac:(clear - C1 Hr Hg Hb; lia))). cbv beta in S. apply Z.leb_le in S.
      unfold off709 in S. fold d in S. fold q in S. exact (Z.lt_irrefl _ (Z.lt_le_trans _ _ _ L S)).
Qed.

Lemma err_709_u r g b : 0 <= r <= 255 -> 0 <= g <= 255 -> 0 <= b <= 255 ->
  Z.abs (err60 (-7508) (-25259) 32767 (in60 (br f709)) (in60 (bg f709)) (in60 (bb f709)) r g b) <= bound60 32941.
Proof.
  intros Hr Hg Hb. pose proof (off709_limit r g b Hr Hg Hb) as L. unfold off709 in L. cbv zeta in L. unfold err60, bound60.
  set (q := (_ + 8421375) / 65536). set (d := -7508 * r + -25259 * g + 32767 * b) in *.
  assert (Q : (d + 32767) / 65536 = q - 128).
  { unfold q. replace (d + 8421375) with (d + 32767 + 128 * 65536) by lia. rewrite Z.div_add by lia. lia. }
  rewrite Q in L. clearbody q. clear Q. unfold d in *. clear d.
  repeat match goal with |- context [in60 ?f] => let v := eval vm_compute in (in60 f) in change (in60 f) with v end.
  change (2 ^ 60) with 1152921504606846976. change (2 ^ 44) with 17592186044416. rewrite Z.abs_le in *. lia.
Qed.

Lemma choice_709 : first_better f709 (-7509) (-25259) (-29763) 1 = true.
Proof.
  refine (first_chosen f709 (-7509) (-25259) (-29763) 1 _ _ _ (bound60 32941) 4 244 0 _ _ _ _ _ _).
  - vm_compute. reflexivity.
  - vm_compute. reflexivity.
  - vm_compute. reflexivity.
  - vm_compute. congruence.
  - exact err_709_u.
  - lia.
  - lia.
  - lia.
  - vm_compute. reflexivity.
Qed.
