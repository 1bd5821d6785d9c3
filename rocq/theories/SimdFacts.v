(** Facts about the vector instructions: element-wise instructions on registers given
    as the image of a list of lanes, and 32-bit shifts on registers given as a list of
    groups of four bytes. *)
From Coq Require Import ZArith List Bool Lia.
Import ListNotations.
From Verif Require Import Base Simd PixelFacts.
Open Scope Z_scope.

(** ** Elements *)
Lemma mod_split a : a mod 256 + 256 * ((a / 256) mod 256) = a mod 65536.
Proof. change 65536 with (256 * 256). rewrite Z.rem_mul_r by lia. reflexivity. Qed.

Lemma mod_split4 a :
  a mod 256 + 256 * ((a / 256) mod 256 + 256 * ((a / 256 / 256) mod 256 + 256 * ((a / 256 / 256 / 256) mod 256)))
  = a mod 4294967296.
Proof.
  rewrite (mod_split (a / 256 / 256)).
  rewrite (Z.div_div a 256 256) by lia.
  change 4294967296 with (65536 * 65536). change (256 * 256) with 65536.
  rewrite Z.rem_mul_r by lia. rewrite <- mod_split. rewrite Z.div_div by lia. lia.
Qed.

Lemma w16_b16 l : w16 (b16 l) = map (fun a => a mod 65536) l.
Proof.
  induction l as [|a l IH]; [reflexivity|].
  change (b16 (a :: l)) with (a mod 256 :: (a / 256) mod 256 :: b16 l).
  cbn [w16 map]. rewrite IH, mod_split. reflexivity.
Qed.
Lemma w32_b32 l : w32 (b32 l) = map (fun a => a mod 4294967296) l.
Proof.
  induction l as [|a l IH]; [reflexivity|].
  change (b32 (a :: l)) with (a mod 256 :: (a / 256) mod 256 :: (a / 256 / 256) mod 256
                              :: (a / 256 / 256 / 256) mod 256 :: b32 l).
  cbn [w32 map]. rewrite IH, mod_split4. reflexivity.
Qed.

Lemma to_bytes2_mod a : to_bytes 2 (a mod 65536) = to_bytes 2 a.
Proof.
  cbn [to_bytes]. change 65536 with (256 * 256). f_equal; [|f_equal].
  - rewrite Z.rem_mul_r by lia. rewrite Z.mul_comm, Z.mod_add by lia. apply Z.mod_mod; lia.
  - rewrite Z.rem_mul_r by lia. rewrite Z.mul_comm, Z.div_add by lia.
    rewrite (Z.div_small (a mod 256)) by (apply Z.mod_pos_bound; lia). rewrite Z.add_0_l.
    apply Z.mod_mod; lia.
Qed.
Lemma to_bytes4_mod a : to_bytes 4 (a mod 4294967296) = to_bytes 4 a.
Proof.
  assert (E : forall x, to_bytes 4 x = to_bytes 2 x ++ to_bytes 2 (x / 65536)).
  { intros x. cbn [to_bytes app]. rewrite (Z.div_div x 256 256) by lia. reflexivity. }
  rewrite !E. change 4294967296 with (65536 * 65536). f_equal.
  - rewrite Z.rem_mul_r by lia. rewrite <- to_bytes2_mod.
    rewrite Z.mul_comm, Z.mod_add, Z.mod_mod by lia. apply to_bytes2_mod.
  - rewrite Z.rem_mul_r by lia. rewrite Z.mul_comm, Z.div_add by lia.
    rewrite (Z.div_small (a mod 65536)) by (apply Z.mod_pos_bound; lia). rewrite Z.add_0_l.
    apply to_bytes2_mod.
Qed.

Lemma flat_map_map {A B} (f : A -> B) (g : B -> list Z) l :
  flat_map g (map f l) = flat_map (fun x => g (f x)) l.
Proof. induction l; cbn; [auto|]. rewrite IHl. auto. Qed.
Lemma flat_map_ext' {A} (f g : A -> list Z) l :
  (forall x, In x l -> f x = g x) -> flat_map f l = flat_map g l.
Proof.
  induction l as [|x l IH]; intros H; cbn [flat_map]; auto.
  rewrite (H x) by (left; auto). f_equal. apply IH. intros y Hy. apply H. right; auto.
Qed.

Section Lanes.
Context {A : Type}.
Implicit Types (f g : A -> Z) (ps : list A).

Lemma b16_ext f g ps : (forall p, In p ps -> f p mod 65536 = g p mod 65536) ->
  b16 (map f ps) = b16 (map g ps).
Proof.
  intros H. unfold b16. rewrite !flat_map_map. apply flat_map_ext'. intros p Hp.
  rewrite <- (to_bytes2_mod (f p)), <- (to_bytes2_mod (g p)), H; auto.
Qed.
Lemma b32_ext f g ps : (forall p, In p ps -> f p mod 4294967296 = g p mod 4294967296) ->
  b32 (map f ps) = b32 (map g ps).
Proof.
  intros H. unfold b32. rewrite !flat_map_map. apply flat_map_ext'. intros p Hp.
  rewrite <- (to_bytes4_mod (f p)), <- (to_bytes4_mod (g p)), H; auto.
Qed.

Lemma map2_map F f g ps : map2 F (map f ps) (map g ps) = map (fun p => F (f p) (g p)) ps.
Proof. induction ps; cbn; [auto|]. rewrite IHps. auto. Qed.

Lemma w16_map f ps : w16 (b16 (map f ps)) = map (fun p => f p mod 65536) ps.
Proof. rewrite w16_b16, map_map. auto. Qed.
Lemma w32_map f ps : w32 (b32 (map f ps)) = map (fun p => f p mod 4294967296) ps.
Proof. rewrite w32_b32, map_map. auto. Qed.

Lemma add16_map f g ps :
  add_epi16 (b16 (map f ps)) (b16 (map g ps)) = b16 (map (fun p => f p + g p) ps).
Proof.
  unfold add_epi16. rewrite !w16_map, map2_map. apply b16_ext. intros p _.
  symmetry. apply Zplus_mod.
Qed.
Lemma sub16_map f g ps :
  sub_epi16 (b16 (map f ps)) (b16 (map g ps)) = b16 (map (fun p => f p - g p) ps).
Proof.
  unfold sub_epi16. rewrite !w16_map, map2_map. apply b16_ext. intros p _.
  symmetry. apply Zminus_mod.
Qed.
Lemma add32_map f g ps :
  add_epi32 (b32 (map f ps)) (b32 (map g ps)) = b32 (map (fun p => f p + g p) ps).
Proof.
  unfold add_epi32. rewrite !w32_map, map2_map. apply b32_ext. intros p _.
  symmetry. apply Zplus_mod.
Qed.

Lemma mulhi_map f g ps : (forall p, In p ps -> 0 <= f p < 65536 /\ 0 <= g p < 65536) ->
  mulhi_epu16 (b16 (map f ps)) (b16 (map g ps)) = b16 (map (fun p => f p * g p / 65536) ps).
Proof.
  intros H. unfold mulhi_epu16. rewrite !w16_map, map2_map. apply b16_ext. intros p Hp.
  destruct (H p Hp). rewrite (Z.mod_small (f p)), (Z.mod_small (g p)) by lia. auto.
Qed.

Lemma i16_mod x : i16 (x mod 65536) = i16 x.
Proof. unfold i16. rewrite Zplus_mod_idemp_l. auto. Qed.
Lemma i32_mod x : i32 (x mod 4294967296) = i32 x.
Proof. unfold i32. rewrite Zplus_mod_idemp_l. auto. Qed.
Lemma i16_small x : -32768 <= x < 32768 -> i16 x = x.
Proof. intros H. unfold i16. rewrite Z.mod_small; lia. Qed.
Lemma i32_small x : -2147483648 <= x < 2147483648 -> i32 x = x.
Proof. intros H. unfold i32. rewrite Z.mod_small; lia. Qed.

Lemma srai16_map f n ps :
  srai_epi16 (b16 (map f ps)) n = b16 (map (fun p => i16 (f p) / 2 ^ n) ps).
Proof.
  unfold srai_epi16. rewrite w16_map, map_map. apply b16_ext. intros p _.
  rewrite i16_mod. auto.
Qed.
Lemma srai32_map f n ps :
  srai_epi32 (b32 (map f ps)) n = b32 (map (fun p => i32 (f p) / 2 ^ n) ps).
Proof.
  unfold srai_epi32. rewrite w32_map, map_map. apply b32_ext. intros p _.
  rewrite i32_mod. auto.
Qed.

(** Pairs of 16-bit elements. *)
Definition pairs f g ps : list Z := flat_map (fun p => [f p; g p]) ps.

Lemma w16_pairs f g ps :
  w16 (b16 (pairs f g ps)) = pairs (fun p => f p mod 65536) (fun p => g p mod 65536) ps.
Proof. rewrite w16_b16. unfold pairs. induction ps; cbn; [auto|]. rewrite IHps. auto. Qed.
Lemma map2_pairs F f g u v ps :
  map2 F (pairs f g ps) (pairs u v ps) = pairs (fun p => F (f p) (u p)) (fun p => F (g p) (v p)) ps.
Proof. unfold pairs. induction ps; cbn; [auto|]. rewrite IHps. auto. Qed.
Lemma pair_sums_pairs f g ps : pair_sums (pairs f g ps) = map (fun p => f p + g p) ps.
Proof. unfold pairs. induction ps; cbn; [auto|]. rewrite IHps. auto. Qed.

Lemma b16_pairs_ext f g u v ps :
  (forall p, In p ps -> f p mod 65536 = u p mod 65536 /\ g p mod 65536 = v p mod 65536) ->
  b16 (pairs f g ps) = b16 (pairs u v ps).
Proof.
  intros H. unfold b16, pairs. induction ps as [|p ps IH]; cbn [flat_map app]; auto.
  destruct (H p) as [H1 H2]; [left; auto|].
  rewrite <- (to_bytes2_mod (f p)), <- (to_bytes2_mod (g p)), H1, H2, !to_bytes2_mod.
  do 2 f_equal. apply IH. intros q Hq. apply H. right; auto.
Qed.

Lemma add16_pairs f g u v ps :
  add_epi16 (b16 (pairs f g ps)) (b16 (pairs u v ps))
  = b16 (pairs (fun p => f p + u p) (fun p => g p + v p) ps).
Proof.
  unfold add_epi16. rewrite !w16_pairs, map2_pairs. apply b16_pairs_ext. intros p _.
  split; symmetry; apply Zplus_mod.
Qed.

Lemma madd_pairs f g u v ps :
  madd_epi16 (b16 (pairs f g ps)) (b16 (pairs u v ps))
  = b32 (map (fun p => i16 (f p) * i16 (u p) + i16 (g p) * i16 (v p)) ps).
Proof.
  unfold madd_epi16. rewrite !w16_pairs, map2_pairs, pair_sums_pairs. f_equal.
  apply map_ext. intros p. rewrite !i16_mod. auto.
Qed.

End Lanes.

Lemma packs_map {A B} (f : A -> Z) (g : B -> Z) ps qs :
  packs_epi32 (b32 (map f ps)) (b32 (map g qs))
  = b16 (map (fun p => sat (-32768) 32767 (i32 (f p))) ps ++
         map (fun p => sat (-32768) 32767 (i32 (g p))) qs).
Proof.
  unfold packs_epi32. rewrite !w32_map, map_app, !map_map. do 2 f_equal;
  apply map_ext; intros p; rewrite i32_mod; auto.
Qed.
Lemma packus_app l l' :
  packus_epi16 (b16 l) (b16 l') = map (fun a => sat 0 255 (i16 a)) (l ++ l').
Proof.
  unfold packus_epi16. rewrite !w16_b16, !map_app, !map_map. f_equal;
  apply map_ext; intros p; rewrite i16_mod; auto.
Qed.
Lemma b16_app l l' : b16 (l ++ l') = b16 l ++ b16 l'.
Proof. apply flat_map_app. Qed.
Lemma b32_app l l' : b32 (l ++ l') = b32 l ++ b32 l'.
Proof. apply flat_map_app. Qed.
Lemma b16_length l : length (b16 l) = (2 * length l)%nat.
Proof. unfold b16. induction l; cbn in *; auto. rewrite IHl. lia. Qed.
Lemma b32_length l : length (b32 l) = (4 * length l)%nat.
Proof. unfold b32. induction l; cbn in *; auto. rewrite IHl. lia. Qed.

Lemma firstn_app_eq {A} n (l l' : list A) : length l = n -> firstn n (l ++ l') = l.
Proof. intros <-. rewrite firstn_app, Nat.sub_diag, firstn_all. apply app_nil_r. Qed.
Lemma skipn_app_eq {A} n (l l' : list A) : length l = n -> skipn n (l ++ l') = l'.
Proof. intros <-. rewrite skipn_app, Nat.sub_diag, skipn_all. auto. Qed.

Lemma halves1_app f x y : length x = 16%nat -> halves1 f (x ++ y) = f x ++ f y.
Proof. intros H. unfold halves1, lo, hi. rewrite firstn_app_eq, skipn_app_eq by auto. auto. Qed.
Lemma halves2_app f x y x' y' : length x = 16%nat -> length x' = 16%nat ->
  halves2 f (x ++ y) (x' ++ y') = f x x' ++ f y y'.
Proof. intros H H'. unfold halves2, lo, hi. rewrite !firstn_app_eq, !skipn_app_eq by auto. auto. Qed.

(** ** Groups of four bytes *)
Definition quad := (Z * Z * Z * Z)%type.
Definition quad_ok (q : quad) : Prop :=
  let '(a, b, c, d) := q in is_byte a /\ is_byte b /\ is_byte c /\ is_byte d.
Definition qs_ok (l : list quad) : Prop := Forall quad_ok l.
Definition quads (l : list quad) : reg := flat_map (fun q : quad => let '(a, b, c, d) := q in [a; b; c; d]) l.
Definition qval (q : quad) : Z := let '(a, b, c, d) := q in a + 256 * (b + 256 * (c + 256 * d)).

Lemma w32_quads l : w32 (quads l) = map qval l.
Proof. induction l as [|[[[a b] c] d] l IH]; [reflexivity|]. unfold quads in *. cbn. rewrite IH. auto. Qed.

Lemma byte_cons a x : is_byte a -> (a + 256 * x) mod 256 = a /\ (a + 256 * x) / 256 = x.
Proof.
  unfold is_byte. intros H. rewrite Z.mul_comm. split.
  - rewrite Z.mod_add by lia. apply Z.mod_small; lia.
  - rewrite Z.div_add by lia. rewrite Z.div_small by lia. lia.
Qed.

Lemma to_bytes_qval a b c d : quad_ok (a, b, c, d) -> forall e, 
  to_bytes 4 (qval (a, b, c, d) + 4294967296 * e) = [a; b; c; d].
Proof.
  intros (Ha & Hb & Hc & Hd) e. cbn [qval].
  replace (a + 256 * (b + 256 * (c + 256 * d)) + 4294967296 * e)
    with (a + 256 * (b + 256 * (c + 256 * (d + 256 * e)))) by lia.
  cbn [to_bytes].
  destruct (byte_cons a (b + 256 * (c + 256 * (d + 256 * e))) Ha) as [-> ->].
  destruct (byte_cons b (c + 256 * (d + 256 * e)) Hb) as [-> ->].
  destruct (byte_cons c (d + 256 * e) Hc) as [-> ->].
  destruct (byte_cons d e Hd) as [-> _]. reflexivity.
Qed.

Lemma map_quads (F : Z -> Z) (G : quad -> quad) l :
  (forall q, quad_ok q -> to_bytes 4 (F (qval q)) = quads [G q]) ->
  qs_ok l -> b32 (map F (map qval l)) = quads (map G l).
Proof.
  intros H Hl. induction Hl as [|q l Hq Hl IH]; [reflexivity|].
  unfold b32, quads in *. cbn [map flat_map]. rewrite IH, H by auto.
  cbn [flat_map]. rewrite app_nil_r. reflexivity.
Qed.

Definition shl8 (q : quad) : quad := let '(a, b, c, d) := q in (0, a, b, c).
Definition shr8 (q : quad) : quad := let '(a, b, c, d) := q in (b, c, d, 0).

Lemma shl8_ok q : quad_ok q -> quad_ok (shl8 q).
Proof. destruct q as [[[a b] c] d]. unfold quad_ok, shl8, is_byte. intuition lia. Qed.
Lemma shr8_ok q : quad_ok q -> quad_ok (shr8 q).
Proof. destruct q as [[[a b] c] d]. unfold quad_ok, shr8, is_byte. intuition lia. Qed.

Lemma qval_shl8 q : qval q * 256 = qval (shl8 q) + 4294967296 * (let '(_, _, _, d) := q in d).
Proof. destruct q as [[[a b] c] d]. cbn [qval shl8]. lia. Qed.
Lemma qval_shr8 q : quad_ok q -> qval q / 256 = qval (shr8 q).
Proof.
  destruct q as [[[a b] c] d]. intros (Ha & _). cbn [qval shr8].
  destruct (byte_cons a (b + 256 * (c + 256 * d)) Ha) as [_ ->]. lia.
Qed.
Lemma quads_qval q e : quad_ok q -> to_bytes 4 (qval q + 4294967296 * e) = quads [q].
Proof. destruct q as [[[a b] c] d]. intros H. rewrite to_bytes_qval; auto. Qed.

Fixpoint iter_q (F : quad -> quad) (n : nat) (q : quad) : quad :=
  match n with O => q | S n => iter_q F n (F q) end.

Lemma slli_quads k l : qs_ok l ->
  slli_epi32 (quads l) (8 * Z.of_nat k) = quads (map (iter_q shl8 k) l).
Proof.
  intros Hl. unfold slli_epi32. rewrite w32_quads. apply map_quads; auto.
  clear. intros q Hq.
  assert (E : exists e, qval q * 2 ^ (8 * Z.of_nat k) = qval (iter_q shl8 k q) + 4294967296 * e
              /\ quad_ok (iter_q shl8 k q)).
  { revert q Hq. induction k as [|k IH]; intros q Hq; cbn [iter_q].
    - exists 0. split; auto. change (2 ^ (8 * Z.of_nat 0)) with 1. lia.
    - destruct (IH (shl8 q) (shl8_ok q Hq)) as (e & He & H2).
      rewrite Nat2Z.inj_succ.
      replace (2 ^ (8 * Z.succ (Z.of_nat k))) with (256 * 2 ^ (8 * Z.of_nat k)).
      2:{ replace (8 * Z.succ (Z.of_nat k)) with (8 + 8 * Z.of_nat k) by lia.
          rewrite Z.pow_add_r by lia. reflexivity. }
      rewrite Z.mul_assoc, qval_shl8, Z.mul_add_distr_r, He. eexists. split; auto.
      rewrite <- Z.mul_assoc, <- Z.add_assoc, <- Z.mul_add_distr_l. reflexivity. }
  destruct E as (e & -> & Hk). apply quads_qval; auto.
Qed.

Lemma srli_quads k l : qs_ok l ->
  srli_epi32 (quads l) (8 * Z.of_nat k) = quads (map (iter_q shr8 k) l).
Proof.
  intros Hl. unfold srli_epi32. rewrite w32_quads. apply map_quads; auto.
  clear. intros q Hq.
  assert (E : qval q / 2 ^ (8 * Z.of_nat k) = qval (iter_q shr8 k q) /\ quad_ok (iter_q shr8 k q)).
  { revert q Hq. induction k as [|k IH]; intros q Hq; cbn [iter_q].
    - change (2 ^ (8 * Z.of_nat 0)) with 1. rewrite Z.div_1_r. auto.
    - destruct (IH (shr8 q) (shr8_ok q Hq)) as (He & H2). split; auto.
      rewrite Nat2Z.inj_succ, <- He, <- qval_shr8 by auto.
      rewrite Z.div_div by (try apply Z.pow_pos_nonneg; lia).
      replace (8 * Z.succ (Z.of_nat k)) with (8 + 8 * Z.of_nat k) by lia.
      rewrite Z.pow_add_r by lia. reflexivity. }
  destruct E as (-> & Hk). rewrite <- (Z.add_0_r (qval _)). apply (quads_qval _ 0); auto.
Qed.

Lemma qs_ok_map F l : (forall q, quad_ok q -> quad_ok (F q)) -> qs_ok l -> qs_ok (map F l).
Proof. intros H Hl. induction Hl; constructor; auto. Qed.
Lemma iter_ok F k : (forall q, quad_ok q -> quad_ok (F q)) -> forall q, quad_ok q -> quad_ok (iter_q F k q).
Proof. intros H. induction k; cbn; auto. Qed.

(** Pixels as two 16-bit elements. *)
Lemma or_quads {A} (F G : A -> quad) l :
  or_si (quads (map F l)) (quads (map G l))
  = quads (map (fun p => let '(a, b, c, d) := F p in let '(a', b', c', d') := G p in
                         (Z.lor a a', Z.lor b b', Z.lor c c', Z.lor d d')) l).
Proof.
  unfold or_si, quads. induction l as [|p l IH]; [reflexivity|].
  cbn [map flat_map]. rewrite <- IH.
  destruct (F p) as [[[a b] c] d], (G p) as [[[a' b'] c'] d']. reflexivity.
Qed.

Lemma to_bytes2_byte a : is_byte a -> to_bytes 2 a = [a; 0].
Proof.
  intros H. unfold is_byte in H. cbn [to_bytes].
  rewrite Z.mod_small, Z.div_small by lia. reflexivity.
Qed.

Lemma quads_pairs {A} (f g : A -> Z) l : (forall p, In p l -> is_byte (f p) /\ is_byte (g p)) ->
  quads (map (fun p => (f p, 0, g p, 0)) l) = b16 (pairs f g l).
Proof.
  intros H. unfold quads, b16, pairs. induction l as [|p l IH]; [reflexivity|].
  cbn [map flat_map app]. destruct (H p) as [H1 H2]; [left; auto|].
  rewrite !to_bytes2_byte by auto. cbn [app]. do 4 f_equal.
  apply IH. intros q Hq. apply H. right; auto.
Qed.
