(** Reasoning principle for the monad of [Base]: commands as lists of byte
    writes.  [exec T ms dl c ws v]: started in any memory whose source buffers
    are [ms] and whose destination buffers have lengths [dl], [c] does not
    fault, returns [v] and performs exactly the writes [ws], in this order. *)
From Coq Require Import ZArith List Bool Lia ZifyBool ZifyNat.
Import ListNotations.
From Verif Require Import Base.
Open Scope Z_scope.

(** ** List lemmas *)
Lemma zlen_nonneg {A} (l : list A) : 0 <= zlen l.
Proof. unfold zlen; lia. Qed.

Lemma upd_length {A} (l : list A) n v : length (upd l n v) = length l.
Proof. revert n; induction l as [|x l IH]; intros [|n]; cbn; auto. Qed.

Lemma nth_upd_same {A} (l : list A) n v d : (n < length l)%nat -> nth n (upd l n v) d = v.
Proof.
  revert n; induction l as [|x l IH]; intros [|n] H; cbn in *; try lia; auto.
  apply IH; lia.
Qed.

Lemma nth_upd_other {A} (l : list A) n k v d : n <> k -> nth k (upd l n v) d = nth k l d.
Proof.
  revert n k; induction l as [|x l IH]; intros [|n] [|k] H; cbn; auto; try lia.
Qed.

Lemma upd_out {A} (l : list A) n v : (length l <= n)%nat -> upd l n v = l.
Proof.
  revert n; induction l as [|x l IH]; intros [|n] H; cbn in *; auto; try lia.
  f_equal; apply IH; lia.
Qed.

Lemma map_upd {A B} (f : A -> B) (l : list A) n v : map f (upd l n v) = upd (map f l) n (f v).
Proof. revert n; induction l as [|x l IH]; intros [|n]; cbn; auto. f_equal; auto. Qed.

Lemma upd_same {A} (l : list A) n d : upd l n (nth n l d) = l.
Proof. revert n; induction l as [|x l IH]; intros [|n]; cbn; auto. f_equal; auto. Qed.

Lemma In_zseq a n x : In x (zseq a n) <-> a <= x < a + Z.of_nat n.
Proof.
  revert a; induction n as [|n IH]; intros a; cbn [zseq In].
  - lia.
  - rewrite IH. lia.
Qed.

Lemma In_zrange a b x : In x (zrange a b) <-> a <= x < b.
Proof. unfold zrange; rewrite In_zseq; lia. Qed.

Lemma zseq_length a n : length (zseq a n) = n.
Proof. revert a; induction n; intros; cbn; auto. Qed.

Lemma zseq_app a n k : zseq a (n + k) = zseq a n ++ zseq (a + Z.of_nat n) k.
Proof.
  revert a; induction n as [|n IH]; intros a; cbn [zseq app Nat.add].
  - f_equal; lia.
  - rewrite IH. do 3 f_equal; lia.
Qed.

Lemma nth_zseq a n i d : (i < n)%nat -> nth i (zseq a n) d = a + Z.of_nat i.
Proof.
  revert a i; induction n as [|n IH]; intros a [|i] H; cbn [zseq nth]; try lia.
  rewrite IH by lia. lia.
Qed.

(** ** Writes *)

(** A byte write: destination buffer, absolute offset in it, value. *)
Definition write := (nat * Z * Z)%type.

Definition app1 (m : mem) (w : write) : mem :=
  let '(n, a, v) := w in
  Mem (srcs m) (upd (dsts m) n (upd (nth n (dsts m) []) (Z.to_nat a) v)).

Definition apply (ws : list write) (m : mem) : mem := fold_left app1 ws m.

Definition shaped (ms : list (list Z)) (dl : list nat) (m : mem) : Prop :=
  srcs m = ms /\ map (@length Z) (dsts m) = dl.

Lemma shaped_app1 ms dl m w : shaped ms dl m -> shaped ms dl (app1 m w).
Proof.
  intros [Hs Hd]. destruct w as [[n a] v]. split; cbn; auto.
  rewrite map_upd, upd_length, <- Hd.
  change (length (nth n (dsts m) [])) with ((@length Z) (nth n (dsts m) [])).
  rewrite <- (map_nth (@length Z)). cbn. apply upd_same.
Qed.

Lemma shaped_apply ms dl ws m : shaped ms dl m -> shaped ms dl (apply ws m).
Proof.
  revert m; induction ws as [|w ws IH]; intros m H; cbn; auto.
  apply IH, shaped_app1, H.
Qed.

Lemma apply_app ws1 ws2 m : apply (ws1 ++ ws2) m = apply ws2 (apply ws1 m).
Proof. unfold apply. apply fold_left_app. Qed.

Section Exec.
Variable T : target.
Variable ms : list (list Z).
Variable dl : list nat.

Definition exec {A} (c : M A) (ws : list write) (v : A) : Prop :=
  forall m, shaped ms dl m -> c T m = Ok v (apply ws m).

Definition faults {A} (c : M A) (f : fault) : Prop :=
  forall m, shaped ms dl m -> c T m = Fault f.

Lemma exec_ret {A} (a : A) : exec (ret a) [] a.
Proof. intros m _. reflexivity. Qed.

Lemma exec_bind {A B} (c : M A) (k : A -> M B) ws1 ws2 v1 v2 :
  exec c ws1 v1 -> exec (k v1) ws2 v2 -> exec (bind c k) (ws1 ++ ws2) v2.
Proof.
  intros H1 H2 m Hm. (unfold bind; cbn [run]). rewrite (H1 m Hm), apply_app.
  apply H2, shaped_apply, Hm.
Qed.

(** Most commands (arithmetic, loads) write nothing. *)
Lemma exec_bind0 {A B} (c : M A) (k : A -> M B) ws v1 v2 :
  exec c [] v1 -> exec (k v1) ws v2 -> exec (bind c k) ws v2.
Proof. intros H1 H2. change ws with ([] ++ ws). eapply exec_bind; eauto. Qed.

Lemma exec_eq {A} (c : M A) ws ws' v v' :
  exec c ws v -> ws = ws' -> v = v' -> exec c ws' v'.
Proof. intros H <- <-. exact H. Qed.

Lemma exec_det {A} (c : M A) ws ws' v v' m :
  shaped ms dl m -> exec c ws v -> exec c ws' v' -> v = v'.
Proof. intros Hm H H'. specialize (H m Hm). specialize (H' m Hm). congruence. Qed.

(** ** Arithmetic *)
Lemma exec_ures r : 0 <= r < usz T -> exec (ures r) [] r.
Proof.
  intros H m _. (unfold ures; cbn [run]).
  replace ((0 <=? r) && (r <? usz T)) with true by lia. reflexivity.
Qed.

Lemma exec_uadd a b : 0 <= a + b < usz T -> exec (uadd a b) [] (a + b).
Proof. apply exec_ures. Qed.
Lemma exec_usub a b : 0 <= a - b < usz T -> exec (usub a b) [] (a - b).
Proof. apply exec_ures. Qed.
Lemma exec_umul a b : 0 <= a * b < usz T -> exec (umul a b) [] (a * b).
Proof. apply exec_ures. Qed.

Lemma exec_ires r : - 2 ^ 31 <= r < 2 ^ 31 -> exec (ires r) [] r.
Proof.
  intros H m _. (unfold ires; cbn [run]).
  replace ((- 2 ^ 31 <=? r) && (r <? 2 ^ 31)) with true by lia. reflexivity.
Qed.

Lemma exec_iadd a b : - 2 ^ 31 <= a + b < 2 ^ 31 -> exec (iadd a b) [] (a + b).
Proof. apply exec_ires. Qed.
Lemma exec_isub a b : - 2 ^ 31 <= a - b < 2 ^ 31 -> exec (isub a b) [] (a - b).
Proof. apply exec_ires. Qed.
Lemma exec_imul a b : - 2 ^ 31 <= a * b < 2 ^ 31 -> exec (imul a b) [] (a * b).
Proof. apply exec_ires. Qed.
Lemma exec_ineg a : - 2 ^ 31 <= - a < 2 ^ 31 -> exec (ineg a) [] (- a).
Proof. apply exec_ires. Qed.

(** ** Views *)
Definition plane_len (p : plane) : Z :=
  match p with
  | Src n => zlen (nth n ms [])
  | Dst n => Z.of_nat (nth n dl 0%nat)
  end.

(** The number of bytes really accessible through the slice. It is [s_len] for
    the slices of a Rust caller, which lie inside their buffer; the C API
    makes slices that claim to be longer than the memory behind them. *)
Definition cap (s : slice) : Z := Z.min (s_len s) (plane_len (s_plane s) - s_off s).

Definition view_ok (s : slice) : Prop := 0 <= s_off s /\ 0 <= cap s.

(** Byte [i] of a source slice. *)
Definition byte (s : slice) (i : Z) : Z :=
  match s_plane s with
  | Src n => nth (Z.to_nat (s_off s + i)) (nth n ms []) 0
  | Dst _ => 0
  end.

Definition is_src (s : slice) : Prop := exists n, s_plane s = Src n.
Definition is_dst (s : slice) (n : nat) : Prop := s_plane s = Dst n.

Lemma exec_ld s i : view_ok s -> is_src s -> 0 <= i < cap s ->
  exec (ld s i) [] (byte s i).
Proof.
  intros (H1 & H2) [n Hn] Hi m [Hs Hd]. (unfold ld, byte, cap in *; cbn [run] in *).
  rewrite Hn in *. cbn [plane_bytes plane_len] in *. rewrite Hs.
  replace ((0 <=? i) && (i <? s_len s) && (0 <=? s_off s + i)
           && (s_off s + i <? zlen (nth n ms []))) with true by lia.
  reflexivity.
Qed.

Lemma exec_st s n i v : view_ok s -> is_dst s n -> 0 <= i < cap s ->
  exec (st s i v) [(n, s_off s + i, v)] tt.
Proof.
  intros (H1 & H2) Hn Hi m [Hs Hd]. (unfold st, is_dst, cap in *; cbn [run] in *).
  rewrite Hn in *. cbn [plane_len] in *.
  replace (zlen (nth n (dsts m) [])) with (Z.of_nat (nth n dl 0%nat)).
  2:{ rewrite <- Hd. change 0%nat with (@length Z []). rewrite map_nth. reflexivity. }
  replace ((0 <=? i) && (i <? s_len s) && (0 <=? s_off s + i)
           && (s_off s + i <? Z.of_nat (nth n dl 0%nat))) with true by lia.
  reflexivity.
Qed.

Lemma exec_ldn s i n : view_ok s -> is_src s -> 0 <= i -> i + Z.of_nat n <= cap s ->
  exec (ldn s i n) [] (map (byte s) (zseq i n)).
Proof.
  intros Hv Hs. revert i. induction n as [|n IH]; intros i H1 H2; cbn [ldn zseq map].
  - apply exec_ret.
  - eapply exec_bind0. { apply exec_ld; auto; lia. }
    eapply exec_bind0. { apply IH; lia. }
    apply exec_ret.
Qed.

Fixpoint writes (n : nat) (a : Z) (bs : list Z) : list write :=
  match bs with
  | [] => []
  | b :: bs' => (n, a, b) :: writes n (a + 1) bs'
  end.

Lemma exec_stn s n i bs : view_ok s -> is_dst s n -> 0 <= i -> i + zlen bs <= cap s ->
  exec (stn s i bs) (writes n (s_off s + i) bs) tt.
Proof.
  intros Hv Hs. unfold zlen. revert i.
  induction bs as [|b bs IH]; intros i H1 H2; cbn [stn writes length] in *.
  - apply exec_ret.
  - change ((n, s_off s + i, b) :: writes n (s_off s + i + 1) bs)
      with ([(n, s_off s + i, b)] ++ writes n (s_off s + i + 1) bs).
    eapply exec_bind. { eapply exec_st; eauto; lia. }
    replace (s_off s + i + 1) with (s_off s + (i + 1)) by lia.
    apply IH; lia.
Qed.

Lemma In_writes n a bs k i v :
  In (k, i, v) (writes n a bs) <->
  k = n /\ a <= i < a + zlen bs /\ v = nth (Z.to_nat (i - a)) bs 0.
Proof.
  unfold zlen. revert a. induction bs as [|b bs IH]; intros a; cbn [writes In length nth].
  - split; [tauto|lia].
  - rewrite IH. split.
    + intros [E|(-> & H2 & ->)].
      * injection E as <- <- <-. repeat split; try lia.
        replace (Z.to_nat (a - a)) with 0%nat by lia. reflexivity.
      * repeat split; try lia.
        replace (Z.to_nat (i - a)) with (S (Z.to_nat (i - (a + 1)))) by lia. reflexivity.
    + intros (-> & H2 & ->). destruct (Z.eq_dec i a) as [->|Hne].
      * left. replace (Z.to_nat (a - a)) with 0%nat by lia. reflexivity.
      * right. repeat split; try lia.
        replace (Z.to_nat (i - a)) with (S (Z.to_nat (i - (a + 1)))) by lia. reflexivity.
Qed.

Lemma exec_slice_from s i : 0 <= i <= s_len s ->
  exec (slice_from s i) [] (Slice (s_plane s) (s_off s + i) (s_len s - i)).
Proof.
  intros H. unfold slice_from. replace ((0 <=? i) && (i <=? s_len s)) with true by lia.
  apply exec_ret.
Qed.

Lemma cap_from s i : cap (Slice (s_plane s) (s_off s + i) (s_len s - i)) = cap s - i.
Proof. unfold cap; cbn [s_plane s_off s_len]. lia. Qed.

Lemma view_ok_from s i : view_ok s -> 0 <= i <= cap s ->
  view_ok (Slice (s_plane s) (s_off s + i) (s_len s - i)).
Proof. unfold view_ok. rewrite cap_from. cbn [s_off]. lia. Qed.

Lemma cap_le s : cap s <= s_len s.
Proof. unfold cap; lia. Qed.

Lemma byte_from s i j : byte (Slice (s_plane s) (s_off s + i) (s_len s - i)) j = byte s (i + j).
Proof. unfold byte; cbn. destruct (s_plane s); auto. do 2 f_equal. lia. Qed.

Lemma exec_split_at s i : 0 <= i <= s_len s ->
  exec (split_at s i) [] (Slice (s_plane s) (s_off s) i,
                          Slice (s_plane s) (s_off s + i) (s_len s - i)).
Proof.
  intros H. unfold split_at. replace ((0 <=? i) && (i <=? s_len s)) with true by lia.
  apply exec_ret.
Qed.

Lemma exec_index {A} (l : list A) i d : 0 <= i < zlen l ->
  exec (index l i) [] (nth (Z.to_nat i) l d).
Proof.
  intros H. unfold index. replace ((0 <=? i) && (i <? zlen l)) with true by lia.
  rewrite (nth_error_nth' l d) by (unfold zlen in H; lia). apply exec_ret.
Qed.

(** ** Loops *)
Lemma exec_for_from n a f W :
  (forall i, a <= i < a + Z.of_nat n -> exec (f i) (W i) tt) ->
  exec (for_from n a f) (flat_map W (zseq a n)) tt.
Proof.
  revert a. induction n as [|n IH]; intros a H; cbn [for_from zseq flat_map].
  - apply exec_ret.
  - eapply exec_bind. { apply H; lia. }
    apply IH. intros i Hi. apply H; lia.
Qed.

Lemma exec_for n f W :
  (forall i, 0 <= i < n -> exec (f i) (W i) tt) ->
  exec (for_ n f) (flat_map W (zrange 0 n)) tt.
Proof.
  intros H. unfold for_, zrange. rewrite Z.sub_0_r. apply exec_for_from.
  intros i Hi. apply H. lia.
Qed.

(** A loop whose carried state after [i] iterations is [g i]. *)
Lemma exec_loop {S} n (g : Z -> S) (f : S -> M S) W a :
  (forall i, a <= i < a + Z.of_nat n -> exec (f (g i)) (W i) (g (i + 1))) ->
  exec (loop n (g a) f) (flat_map W (zseq a n)) (g (a + Z.of_nat n)).
Proof.
  revert a. induction n as [|n IH]; intros a H; cbn [loop zseq flat_map].
  - rewrite Z.add_0_r. apply exec_ret.
  - eapply exec_bind. { apply H; lia. }
    replace (a + Z.of_nat (Datatypes.S n)) with (a + 1 + Z.of_nat n) by lia.
    apply IH. intros i Hi. apply H; lia.
Qed.

Lemma exec_orM a b x y :
  exec a [] x -> (x = false -> exec b [] y) ->
  exec (orM a b) [] (x || y)%bool.
Proof.
  intros Ha Hb. unfold orM. eapply exec_bind0; [exact Ha|].
  destruct x; cbn; [apply exec_ret|auto].
Qed.

End Exec.

(** ** Final memory contents *)
Lemma apply_dsts_length ws m : length (dsts (apply ws m)) = length (dsts m).
Proof.
  revert m; induction ws as [|[[n a] v] ws IH]; intros m; cbn; auto.
  rewrite IH. cbn. apply upd_length.
Qed.

Lemma apply_nil m : apply [] m = m.
Proof. reflexivity. Qed.

(** Byte [i] of destination buffer [k]. *)
Definition dbyte (m : mem) (k : nat) (i : Z) : Z := nth (Z.to_nat i) (nth k (dsts m) []) 0.

Definition in_dst (dl : list nat) (k : nat) (i : Z) : Prop :=
  0 <= i < Z.of_nat (nth k dl 0%nat).

Lemma dbyte_app1 ms dl m n a v k i :
  shaped ms dl m -> in_dst dl n a -> 0 <= i ->
  dbyte (app1 m (n, a, v)) k i =
  if (k =? n)%nat && (i =? a) then v else dbyte m k i.
Proof.
  intros [Hs Hd] [Ha1 Ha2] Hi. unfold dbyte, app1; cbn.
  assert (Hl : (Z.to_nat a < length (nth n (dsts m) []))%nat).
  { assert (E : nth n dl 0%nat = length (nth n (dsts m) [])).
    { rewrite <- Hd. change 0%nat with (@length Z []). apply map_nth. }
    lia. }
  assert (Hn : (n < length (dsts m))%nat).
  { destruct (Nat.lt_ge_cases n (length (dsts m))) as [|H]; auto.
    rewrite (nth_overflow (dsts m) [] H) in Hl. cbn in Hl. lia. }
  destruct (Nat.eqb_spec k n) as [->|Hk]; cbn.
  - rewrite nth_upd_same by auto.
    destruct (Z.eqb_spec i a) as [->|Hia].
    + apply nth_upd_same; auto.
    + apply nth_upd_other. lia.
  - rewrite nth_upd_other by auto. reflexivity.
Qed.

(** A byte not written keeps its value; a byte written holds one of the
    values written to it. *)
Lemma dbyte_apply ms dl ws m k i :
  shaped ms dl m ->
  (forall n a v, In (n, a, v) ws -> in_dst dl n a) -> 0 <= i ->
  (dbyte (apply ws m) k i = dbyte m k i /\ (forall v, ~ In (k, i, v) ws)) \/
  In (k, i, dbyte (apply ws m) k i) ws.
Proof.
  revert m. induction ws as [|[[n a] v] ws IH]; intros m Hm Hb Hi.
  - left. cbn. auto.
  - cbn [apply fold_left]. change (fold_left app1 ws (app1 m (n, a, v))) with (apply ws (app1 m (n, a, v))).
    destruct (IH (app1 m (n, a, v))) as [[E H]|H]; auto.
    + apply shaped_app1; auto.
    + intros; eapply Hb; right; eauto.
    + assert (Hna : in_dst dl n a) by (apply (Hb n a v); left; auto).
      rewrite E. rewrite (dbyte_app1 ms dl) by auto.
      destruct (Nat.eqb_spec k n) as [->|Hk]; destruct (Z.eqb_spec i a) as [->|Hia]; cbn.
      * right. left. reflexivity.
      * left. split; auto. intros v' [E'|H']; [congruence|eapply H; eauto].
      * left. split; auto. intros v' [E'|H']; [congruence|eapply H; eauto].
      * left. split; auto. intros v' [E'|H']; [congruence|eapply H; eauto].
    + right. right. exact H.
Qed.
