(** Rectangular areas of bytes, and commands that write exactly a set of bytes.
    [runs T ms dl c P v]: [c] terminates without fault, returns [v], and the
    byte writes it performs are exactly those satisfying [P]. *)
From Coq Require Import ZArith List Bool Lia ZifyBool ZifyNat.
Import ListNotations.
From Verif Require Import Base Exec.
Open Scope Z_scope.

Definition wset := write -> Prop.
Definition wempty : wset := fun _ => False.
Definition wunion (P Q : wset) : wset := fun w => P w \/ Q w.

(** [rows] rows of [cols] bytes; row [y] starts at offset [base + y * stride] of
    destination buffer [buf]; byte [j] of row [y] has value [val y j]. *)
Record area := Area { a_buf : nat; a_base : Z; a_stride : Z;
                      a_rows : Z; a_cols : Z; a_val : Z -> Z -> Z }.

Definition in_area (A : area) : wset := fun w =>
  exists y j, 0 <= y < a_rows A /\ 0 <= j < a_cols A /\
              w = (a_buf A, a_base A + y * a_stride A + j, a_val A y j).

Fixpoint in_areas (l : list area) : wset :=
  match l with
  | [] => wempty
  | A :: l' => wunion (in_area A) (in_areas l')
  end.

Lemma in_areas_iff l w : in_areas l w <-> exists A, In A l /\ in_area A w.
Proof.
  induction l as [|A l IH]; cbn [in_areas].
  - unfold wempty. firstorder.
  - unfold wunion. rewrite IH. split.
    + intros [H|(B & HB & H)]; [exists A|exists B]; split; auto using in_eq, in_cons.
    + intros (B & [<-|HB] & H); [left|right]; eauto.
Qed.

Section Runs.
Variable T : target.
Variable ms : list (list Z).
Variable dl : list nat.

Definition runs {A} (c : M A) (P : wset) (v : A) : Prop :=
  exists ws, exec T ms dl c ws v /\ forall w, In w ws <-> P w.

Lemma runs_exec {A} (c : M A) ws v : exec T ms dl c ws v -> runs c (fun w => In w ws) v.
Proof. intros H. exists ws. split; auto. intros; tauto. Qed.

Lemma runs_exec0 {A} (c : M A) v : exec T ms dl c [] v -> runs c wempty v.
Proof. intros H. exists []. split; auto. intros; cbn; unfold wempty; tauto. Qed.

Lemma runs_iff {A} (c : M A) (P Q : wset) v :
  runs c P v -> (forall w, P w <-> Q w) -> runs c Q v.
Proof. intros (ws & H & HP) E. exists ws. split; auto. intros w. rewrite HP. apply E. Qed.

Lemma runs_ret {A} (a : A) : runs (ret a) wempty a.
Proof. apply runs_exec0, exec_ret. Qed.

Lemma runs_bind {A B} (c : M A) (k : A -> M B) P Q v1 v2 :
  runs c P v1 -> runs (k v1) Q v2 -> runs (bind c k) (wunion P Q) v2.
Proof.
  intros (ws1 & H1 & E1) (ws2 & H2 & E2). exists (ws1 ++ ws2). split.
  - eapply exec_bind; eauto.
  - intros w. rewrite in_app_iff, E1, E2. reflexivity.
Qed.

Lemma runs_bind0 {A B} (c : M A) (k : A -> M B) Q v1 v2 :
  exec T ms dl c [] v1 -> runs (k v1) Q v2 -> runs (bind c k) Q v2.
Proof.
  intros H1 (ws2 & H2 & E2). exists ws2. split; auto. eapply exec_bind0; eauto.
Qed.

(** The writes first, then commands that write nothing. *)
Lemma runs_bind1 {A B} (c : M A) (k : A -> M B) P v1 v2 :
  runs c P v1 -> exec T ms dl (k v1) [] v2 -> runs (bind c k) P v2.
Proof.
  intros (ws1 & H1 & E1) H2. exists (ws1 ++ []). split.
  - eapply exec_bind; eauto.
  - intros w. rewrite app_nil_r. apply E1.
Qed.

Lemma runs_for_from n a f (P : Z -> wset) :
  (forall i, a <= i < a + Z.of_nat n -> runs (f i) (P i) tt) ->
  runs (for_from n a f) (fun w => exists i, a <= i < a + Z.of_nat n /\ P i w) tt.
Proof.
  revert a. induction n as [|n IH]; intros a H; cbn [for_from].
  - eapply runs_iff; [apply runs_ret|]. intros w; unfold wempty; split; [tauto|].
    intros (i & Hi & _); lia.
  - eapply runs_iff.
    + eapply runs_bind; [apply H; lia|]. apply IH. intros i Hi. apply H; lia.
    + intros w; unfold wunion; split.
      * intros [Hw|(i & Hi & Hw)]; [exists a|exists i]; split; auto; lia.
      * intros (i & Hi & Hw). destruct (Z.eq_dec i a) as [->|Hne]; [left; auto|].
        right; exists i; split; auto; lia.
Qed.

Lemma runs_for n f (P : Z -> wset) :
  (forall i, 0 <= i < n -> runs (f i) (P i) tt) ->
  runs (for_ n f) (fun w => exists i, 0 <= i < n /\ P i w) tt.
Proof.
  intros H. unfold for_. eapply runs_iff.
  - apply runs_for_from with (P := P). intros i Hi; apply H; lia.
  - intros w; split; intros (i & Hi & Hw); exists i; split; auto; lia.
Qed.

Lemma runs_loop {S} n (g : Z -> S) (f : S -> M S) (P : Z -> wset) a :
  (forall i, a <= i < a + Z.of_nat n -> runs (f (g i)) (P i) (g (i + 1))) ->
  runs (loop n (g a) f) (fun w => exists i, a <= i < a + Z.of_nat n /\ P i w) (g (a + Z.of_nat n)).
Proof.
  revert a. induction n as [|n IH]; intros a H; cbn [loop].
  - rewrite Z.add_0_r. eapply runs_iff; [apply runs_ret|]. intros w; unfold wempty; split; [tauto|].
    intros (i & Hi & _); lia.
  - replace (a + Z.of_nat (Datatypes.S n)) with (a + 1 + Z.of_nat n) by lia.
    eapply runs_iff.
    + eapply runs_bind; [apply H; lia|]. apply IH. intros i Hi. apply H; lia.
    + intros w; unfold wunion; split.
      * intros [Hw|(i & Hi & Hw)]; [exists a|exists i]; split; auto; lia.
      * intros (i & Hi & Hw). destruct (Z.eq_dec i a) as [->|Hne]; [left; auto|].
        right; exists i; split; auto; lia.
Qed.

(** [n] iterations starting at iteration number 0. *)
Lemma runs_loop0 {S} n (g : Z -> S) (f : S -> M S) (P : Z -> wset) :
  (forall i, 0 <= i < n -> runs (f (g i)) (P i) (g (i + 1))) -> 0 <= n ->
  runs (loop (Z.to_nat n) (g 0) f) (fun w => exists i, 0 <= i < n /\ P i w) (g n).
Proof.
  intros H Hn. eapply runs_iff.
  - replace (g n) with (g (0 + Z.of_nat (Z.to_nat n))) by (f_equal; lia).
    apply runs_loop with (P := P). intros i Hi; apply H; lia.
  - intros w; split; intros (i & Hi & Hw); exists i; split; auto; lia.
Qed.

Lemma runs_st s n i v : view_ok ms dl s -> is_dst s n -> 0 <= i < cap ms dl s ->
  runs (st s i v) (fun w => w = (n, s_off s + i, v)) tt.
Proof.
  intros. eapply runs_iff.
  - apply runs_exec. apply exec_st; eauto.
  - intros w; cbn. split; [intros [->|[]]; auto | intros ->; auto].
Qed.

Lemma runs_stn s n i bs : view_ok ms dl s -> is_dst s n -> 0 <= i -> i + zlen bs <= cap ms dl s ->
  runs (stn s i bs)
    (in_area (Area n (s_off s + i) 0 1 (zlen bs) (fun _ j => nth (Z.to_nat j) bs 0))) tt.
Proof.
  intros. eapply runs_iff.
  - apply runs_exec. apply exec_stn; eauto.
  - intros [[k a] v]. rewrite In_writes. unfold in_area; cbn. split.
    + intros (-> & Ha & ->). exists 0, (a - (s_off s + i)). repeat split; try lia.
      f_equal. f_equal. lia.
    + intros (y & j & Hy & Hj & E). injection E as -> -> ->.
      repeat split; try lia. f_equal. lia.
Qed.

End Runs.

(** ** Area algebra *)

Lemma area_ext n b s r c f g w :
  (forall y j, 0 <= y < r -> 0 <= j < c -> f y j = g y j) ->
  in_area (Area n b s r c f) w <-> in_area (Area n b s r c g) w.
Proof.
  intros H. unfold in_area; cbn. split; intros (y & j & Hy & Hj & ->); exists y, j;
    repeat split; try lia; rewrite H by lia; reflexivity.
Qed.

(** Equality of areas up to arithmetic on the geometry. *)
Lemma area_ext' n b s r c f n' b' s' r' c' g w :
  n = n' -> b = b' -> s = s' -> r = r' -> c = c' ->
  (forall y j, 0 <= y < r -> 0 <= j < c -> f y j = g y j) ->
  in_area (Area n b s r c f) w <-> in_area (Area n' b' s' r' c' g) w.
Proof. intros -> -> -> -> ->. apply area_ext. Qed.

(** The stride of a one-row area is irrelevant. *)
Lemma area_row n b s s' c f w :
  in_area (Area n b s 1 c f) w <-> in_area (Area n b s' 1 c f) w.
Proof.
  unfold in_area; cbn. split; intros (y & j & Hy & Hj & ->); exists y, j; repeat split; try lia;
    replace y with 0 by lia; do 2 f_equal; lia.
Qed.

(** A single byte. *)
Lemma area_byte n b s v w :
  in_area (Area n b s 1 1 (fun _ _ => v)) w <-> w = (n, b, v).
Proof.
  unfold in_area; cbn. split.
  - intros (y & j & Hy & Hj & ->). do 2 f_equal. replace y with 0 by lia. lia.
  - intros ->. exists 0, 0. repeat split; try lia. do 2 f_equal. lia.
Qed.

(** Tiling: [m] by [n] tiles of [th] rows and [tw] bytes. *)
Lemma area_tile n b s th tw m k f w :
  0 < th -> 0 < tw ->
  in_area (Area n b s (th * m) (tw * k) f) w <->
  exists y, 0 <= y < m /\ exists x, 0 <= x < k /\
    in_area (Area n (b + th * y * s + tw * x) s th tw
                  (fun y' j' => f (th * y + y') (tw * x + j'))) w.
Proof.
  intros Hth Htw. unfold in_area; cbn. split.
  - intros (y & j & Hy & Hj & ->).
    pose proof (Z.div_mod y th ltac:(lia)). pose proof (Z.mod_pos_bound y th ltac:(lia)).
    pose proof (Z.div_mod j tw ltac:(lia)). pose proof (Z.mod_pos_bound j tw ltac:(lia)).
    exists (y / th). split; [nia|]. exists (j / tw). split; [nia|].
    exists (y mod th), (j mod tw). repeat split; try lia.
    f_equal; [f_equal|].
    + replace y with (th * (y / th) + y mod th) at 1 by lia.
      replace j with (tw * (j / tw) + j mod tw) at 1 by lia. ring.
    + f_equal; lia.
  - intros (y & Hy & x & Hx & y' & j' & Hy' & Hj' & ->).
    exists (th * y + y'), (tw * x + j'). repeat split; try nia.
    do 2 f_equal. ring.
Qed.

(** Rows of an area. *)
Lemma area_rows n b s m c f w :
  in_area (Area n b s m c f) w <->
  exists y, 0 <= y < m /\ in_area (Area n (b + y * s) s 1 c (fun _ j => f y j)) w.
Proof.
  unfold in_area; cbn. split.
  - intros (y & j & Hy & Hj & ->). exists y. split; auto. exists 0, j. repeat split; try lia.
    do 2 f_equal. lia.
  - intros (y & Hy & y' & j & Hy' & Hj & ->). replace y' with 0 by lia.
    exists y, j. repeat split; try lia. do 2 f_equal. lia.
Qed.

(** Splitting the columns at [c1]. *)
Lemma area_cols n b s r c1 c2 f w :
  0 <= c1 -> 0 <= c2 ->
  in_area (Area n b s r (c1 + c2) f) w <->
  in_area (Area n b s r c1 f) w \/ in_area (Area n (b + c1) s r c2 (fun y j => f y (c1 + j))) w.
Proof.
  intros H1 H2. unfold in_area; cbn. split.
  - intros (y & j & Hy & Hj & ->). destruct (Z.lt_ge_cases j c1).
    + left. exists y, j. repeat split; auto; lia.
    + right. exists y, (j - c1). repeat split; try lia.
      replace (c1 + (j - c1)) with j by lia. do 2 f_equal. lia.
  - intros [(y & j & Hy & Hj & ->)|(y & j & Hy & Hj & ->)].
    + exists y, j. repeat split; try lia.
    + exists y, (c1 + j). repeat split; try lia. do 2 f_equal. lia.
Qed.

Lemma area_rows2 n b s c f w :
  in_area (Area n b s 2 c f) w <->
  in_area (Area n b s 1 c (fun _ j => f 0 j)) w \/
  in_area (Area n (b + s) s 1 c (fun _ j => f 1 j)) w.
Proof.
  unfold in_area; cbn. split.
  - intros (y & j & Hy & Hj & ->). assert (y = 0 \/ y = 1) as [->| ->] by lia.
    + left. exists 0, j. repeat split; lia.
    + right. exists 0, j. repeat split; try lia. do 2 f_equal; lia.
  - intros [(y & j & Hy & Hj & ->)|(y & j & Hy & Hj & ->)].
    + replace y with 0 by lia. exists 0, j. repeat split; try lia.
    + replace y with 0 by lia. exists 1, j. repeat split; try lia. do 2 f_equal; lia.
Qed.

(** ** Final memory of a command that writes areas *)

(** Two areas never give the same byte two different values, and no area does. *)
Definition consistent (P : wset) : Prop :=
  forall n a v v', P (n, a, v) -> P (n, a, v') -> v = v'.

Lemma runs_final T ms dl (c : M bool) P v m :
  runs T ms dl c P v -> shaped ms dl m ->
  (forall n a x, P (n, a, x) -> in_dst dl n a) ->
  exists m', c T m = Ok v m' /\ shaped ms dl m' /\
    (forall n a, 0 <= a ->
       (dbyte m' n a = dbyte m n a /\ forall x, ~ P (n, a, x)) \/ P (n, a, dbyte m' n a)).
Proof.
  intros (ws & H & E) Hm Hb. exists (apply ws m). split; [apply H; auto|].
  split; [apply shaped_apply; auto|]. intros n a Ha.
  destruct (dbyte_apply ms dl ws m n a) as [[H1 H2]|H1]; auto.
  - intros n' a' x Hx. apply (Hb n' a' x). apply E; auto.
  - left. split; auto. intros x Hx. apply (H2 x). apply E; auto.
  - right. apply E; auto.
Qed.

Lemma area_unique A n a v v' : a_cols A <= a_stride A ->
  in_area A (n, a, v) -> in_area A (n, a, v') -> v = v'.
Proof.
  intros Hs (y & j & Hy & Hj & E) (y' & j' & Hy' & Hj' & E').
  injection E as -> -> ->. injection E' as E ->.
  assert (y = y') by nia. subst. f_equal. lia.
Qed.
