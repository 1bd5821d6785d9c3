(** The RGB to YCbCr arithmetic of sse2.rs and avx2.rs: what is common to 4 and 8 lanes. *)
From Coq Require Import ZArith List Bool Lia ZifyBool ZifyNat.
Import ListNotations.
From Verif Require Import Base Exec Fmt Common Scalar Simd Vector Spec PixelFacts KernelBase
  SimdFacts VecForward.
Open Scope Z_scope.

Definition fst3 (p : rgb) : Z := let '(a, _, _) := p in a.
Definition snd3 (p : rgb) : Z := let '(_, b, _) := p in b.
Definition thd3 (p : rgb) : Z := let '(_, _, c) := p in c.

Definition rgb_ok (m : Z) (p : rgb) : Prop :=
  let '(r, g, b) := p in (0 <= r <= m) /\ (0 <= g <= m) /\ (0 <= b <= m).

(** ** Unpacking *)
Definition q0 (q : quad) : Z := let '(a, _, _, _) := q in a.
Definition q1 (q : quad) : Z := let '(_, a, _, _) := q in a.
Definition q2 (q : quad) : Z := let '(_, _, a, _) := q in a.
Definition q3 (q : quad) : Z := let '(_, _, _, a) := q in a.

Lemma In_quad_ok l q : qs_ok l -> In q l -> is_byte (q0 q) /\ is_byte (q1 q) /\ is_byte (q2 q) /\ is_byte (q3 q).
Proof.
  intros H Hq. unfold qs_ok in H. rewrite Forall_forall in H. specialize (H q Hq).
  destruct q as [[[a b] c] d]. exact H.
Qed.

Lemma slli8 l : qs_ok l -> slli_epi32 (quads l) 8 = quads (map shl8 l).
Proof. apply (slli_quads 1). Qed.
Lemma slli16 l : qs_ok l -> slli_epi32 (quads l) 16 = quads (map (fun q => shl8 (shl8 q)) l).
Proof. apply (slli_quads 2). Qed.
Lemma slli24 l : qs_ok l -> slli_epi32 (quads l) 24 = quads (map (fun q => shl8 (shl8 (shl8 q))) l).
Proof. apply (slli_quads 3). Qed.
Lemma srli8 l : qs_ok l -> srli_epi32 (quads l) 8 = quads (map shr8 l).
Proof. apply (srli_quads 1). Qed.
Lemma srli16 l : qs_ok l -> srli_epi32 (quads l) 16 = quads (map (fun q => shr8 (shr8 q)) l).
Proof. apply (srli_quads 2). Qed.
Lemma srli24 l : qs_ok l -> srli_epi32 (quads l) 24 = quads (map (fun q => shr8 (shr8 (shr8 q))) l).
Proof. apply (srli_quads 3). Qed.

Ltac qok := repeat apply qs_ok_map; auto; intros; repeat first [apply shl8_ok|apply shr8_ok]; auto.

Lemma or_cols (F G : quad -> quad) (f g : quad -> Z) l : qs_ok l ->
  (forall q, quad_ok q -> is_byte (f q) /\ is_byte (g q)) ->
  (forall q, F q = (f q, 0, 0, 0)) -> (forall q, G q = (0, 0, g q, 0)) ->
  or_si (quads (map F l)) (quads (map G l)) = b16 (pairs f g l).
Proof.
  intros Hl Hb HF HG. rewrite or_quads, <- quads_pairs.
  - f_equal. apply map_ext. intros q. rewrite HF, HG. cbn [Z.lor]. rewrite !Z.lor_0_r. auto.
  - intros q Hq. apply Hb. unfold qs_ok in Hl. rewrite Forall_forall in Hl. auto.
Qed.

Lemma unpack_bgra l : qs_ok l ->
  or_si (srli_epi32 (slli_epi32 (quads l) 8) 24)
        (srli_epi32 (slli_epi32 (srli_epi32 (quads l) 8) 24) 8) = b16 (pairs q2 q1 l) /\
  or_si (srli_epi32 (slli_epi32 (quads l) 24) 24)
        (srli_epi32 (slli_epi32 (srli_epi32 (quads l) 8) 24) 8) = b16 (pairs q0 q1 l).
Proof.
  intros Hl.
  rewrite slli8, slli24, srli8, !srli24, slli24, srli8 by qok. rewrite !map_map.
  split; apply or_cols; auto; try (intros [[[a b] c] d]; reflexivity);
    intros [[[a b] c] d] (H1 & H2 & H3 & H4); auto.
Qed.

Lemma unpack_argb l : qs_ok l ->
  or_si (srli_epi32 (slli_epi32 (quads l) 16) 24)
        (srli_epi32 (slli_epi32 (srli_epi32 (quads l) 16) 24) 8) = b16 (pairs q1 q2 l) /\
  or_si (srli_epi32 (quads l) 24)
        (srli_epi32 (slli_epi32 (srli_epi32 (quads l) 16) 24) 8) = b16 (pairs q3 q2 l).
Proof.
  intros Hl.
  rewrite slli16, srli16, !srli24, slli24, srli8 by qok. rewrite !map_map.
  split; apply or_cols; auto; try (intros [[[a b] c] d]; reflexivity);
    intros [[[a b] c] d] (H1 & H2 & H3 & H4); auto.
Qed.

Lemma pairs_map {A B} (h : A -> B) f g l : pairs f g (map h l) = pairs (fun x => f (h x)) (fun x => g (h x)) l.
Proof. unfold pairs. induction l; cbn; [auto|]. rewrite IHl. auto. Qed.

(** ** Weights *)
Lemma b32_pairs {A} (a x y : A -> Z) ps :
  (forall p, to_bytes 4 (a p) = to_bytes 2 (y p) ++ to_bytes 2 (x p)) ->
  b32 (map a ps) = b16 (pairs y x ps).
Proof.
  intros H. unfold b32, b16, pairs. induction ps as [|p ps IH]; [reflexivity|].
  cbn [map flat_map app]. rewrite H, IH, app_assoc. auto.
Qed.
Lemma set1_map {A} n a (ps : list A) : length ps = n -> set1_epi32 n a = b32 (map (fun _ => a) ps).
Proof.
  intros <-. unfold set1_epi32. f_equal. induction ps; cbn; [auto|]. rewrite IHps. auto.
Qed.

Lemma fw0 c : to_bytes 4 (fw c 0) = to_bytes 2 (XR c) ++ to_bytes 2 (XG c - SHORT_HALF).
Proof. destruct c; reflexivity. Qed.
Lemma fw1 c : to_bytes 4 (fw c 1) = to_bytes 2 (XB c) ++ to_bytes 2 SHORT_HALF.
Proof. destruct c; reflexivity. Qed.
Lemma fw2 c : to_bytes 4 (fw c 2) = to_bytes 2 (YB c) ++ to_bytes 2 (ZG c).
Proof. destruct c; reflexivity. Qed.
Lemma fw3 c : to_bytes 4 (fw c 3) = to_bytes 2 (YR c) ++ to_bytes 2 (YG c).
Proof. destruct c; reflexivity. Qed.
Lemma fw4 c : to_bytes 4 (fw c 4) = to_bytes 2 (ZB c) ++ to_bytes 2 0.
Proof. destruct c; reflexivity. Qed.
Lemma fw5 c : to_bytes 4 (fw c 5) = to_bytes 2 (YB c) ++ to_bytes 2 0.
Proof. destruct c; reflexivity. Qed.
Lemma fw6 c : fw c 6 = YO c.
Proof. destruct c; reflexivity. Qed.

(** ** The affine transform on lanes *)
Lemma affine_lanes {A} (r g b : A -> Z) (u0 v0 u1 v1 k : A -> Z) ps :
  add_epi32 (add_epi32 (madd_epi16 (b16 (pairs r g ps)) (b16 (pairs u0 v0 ps)))
                       (madd_epi16 (b16 (pairs b g ps)) (b16 (pairs u1 v1 ps))))
            (b32 (map k ps))
  = b32 (map (fun p => i16 (r p) * i16 (u0 p) + i16 (g p) * i16 (v0 p)
                       + (i16 (b p) * i16 (u1 p) + i16 (g p) * i16 (v1 p)) + k p) ps).
Proof. rewrite !madd_pairs, !add32_map. auto. Qed.

(** ** Packing *)
Definition pack32 (v : Z) : Z := sat 0 255 (i16 (sat (-32768) 32767 (i32 v))).

Lemma pack32_clamp v : 0 <= v <= 255 -> pack32 v = v.
Proof.
  intros H. unfold pack32. rewrite i32_small by lia. unfold sat.
  destruct (Z.ltb_spec v (-32768)); [lia|]. destruct (Z.ltb_spec 32767 v); [lia|].
  rewrite i16_small by lia.
  destruct (Z.ltb_spec v 0); [lia|]. destruct (Z.ltb_spec 255 v); lia.
Qed.

Lemma pack_lanes {A} (F : A -> Z) ps qs :
  packus_epi16 (packs_epi32 (b32 (map F ps)) (b32 (map F ps))) (packs_epi32 (b32 (map F qs)) (b32 (map F qs)))
  = map (fun p => pack32 (F p)) ((ps ++ ps) ++ (qs ++ qs)).
Proof.
  rewrite !packs_map, packus_app, !map_app, !map_map. reflexivity.
Qed.

(** ** One lane *)
Lemma fwd_i16 c : i16 (XR c) = XR c /\ i16 (XG c - SHORT_HALF) = XG c - SHORT_HALF /\ i16 (XB c) = XB c
  /\ i16 SHORT_HALF = SHORT_HALF /\ i16 (YB c) = YB c /\ i16 (ZG c) = ZG c /\ i16 (YR c) = YR c
  /\ i16 (YG c) = YG c /\ i16 (ZB c) = ZB c /\ i16 0 = 0.
Proof. destruct c; vm_compute; auto 10. Qed.

Lemma shift_range t n p : 0 <= n -> 2 ^ n = p -> 0 < p -> 256 * p <= 2147483648 -> 0 <= t < 256 * p ->
  pack32 (i32 t / 2 ^ n) = u8 (fix_to_i32 t n).
Proof.
  intros Hn E Hp H Ht. unfold fix_to_i32, u8. rewrite Z.shiftr_div_pow2 by lia. rewrite E.
  rewrite i32_small by lia.
  assert (0 <= t / p < 256).
  { split; [apply Z.div_pos; lia|]. apply Z.div_lt_upper_bound; lia. }
  rewrite pack32_clamp, Z.mod_small by lia. auto.
Qed.

Lemma pack_fix16 t : 0 <= t < 16777216 -> pack32 (i32 t / 2 ^ FIX16) = u8 (fix_to_i32 t FIX16).
Proof.
  intros H. apply (shift_range t FIX16 65536); auto; try lia; try reflexivity. unfold FIX16. lia.
Qed.
Lemma pack_fix18 t : 0 <= t < 67108864 -> pack32 (i32 t / 2 ^ FIX18) = u8 (fix_to_i32 t FIX18).
Proof.
  intros H. apply (shift_range t FIX18 262144); auto; try lia; try reflexivity. unfold FIX18. lia.
Qed.

Lemma luma_lane c p : rgb_ok 255 p ->
  pack32 (i32 (i16 (fst3 p) * i16 (XR c) + i16 (snd3 p) * i16 (XG c - SHORT_HALF)
               + (i16 (thd3 p) * i16 (XB c) + i16 (snd3 p) * i16 SHORT_HALF) + YO c) / 2 ^ FIX16)
  = luma (cs_of c) p.
Proof.
  destruct p as [[r g] b]. intros (Hr & Hg & Hb). cbn [fst3 snd3 thd3].
  destruct (fwd_i16 c) as (-> & -> & -> & -> & _). rewrite !(i16_small r), !(i16_small g), !(i16_small b) by lia.
  replace (r * XR c + g * (XG c - SHORT_HALF) + (b * XB c + g * SHORT_HALF) + YO c)
    with (XR c * r + XG c * g + XB c * b + YO c) by ring.
  rewrite <- luma_model by (unfold is_byte; lia). apply pack_fix16.
  destruct c; cbn [XR XG XB YO]; try change Y_OFFSET with 1081344; try change FIX16_HALF with 32768; lia.
Qed.

Lemma cb_lane c p : rgb_ok 255 p ->
  pack32 (i32 (i16 (fst3 p) * i16 (YR c) + i16 (snd3 p) * i16 (YG c)
               + (i16 (thd3 p) * i16 (YB c) + i16 (snd3 p) * i16 0) + (FIX16_C_HALF + (FIX16_HALF - 1))) / 2 ^ FIX16)
  = blue_diff (cs_of c) 1 p.
Proof.
  destruct p as [[r g] b]. intros (Hr & Hg & Hb). cbn [fst3 snd3 thd3].
  destruct (fwd_i16 c) as (_ & _ & _ & _ & -> & _ & -> & -> & _ & ->).
  rewrite !(i16_small r), !(i16_small g), !(i16_small b) by lia.
  replace (r * YR c + g * YG c + (b * YB c + g * 0) + (FIX16_C_HALF + (FIX16_HALF - 1)))
    with (YR c * r + YG c * g + YB c * b + (FIX16_C_HALF + (FIX16_HALF - 1))) by ring.
  rewrite <- cb_model by (unfold is_byte; lia). apply pack_fix16.
  change (FIX16_C_HALF + (FIX16_HALF - 1)) with 8421375. unfold YB.
  destruct c; cbn [YR YG]; lia.
Qed.
Lemma cr_lane c p : rgb_ok 255 p ->
  pack32 (i32 (i16 (fst3 p) * i16 (YB c) + i16 (snd3 p) * i16 (ZG c)
               + (i16 (thd3 p) * i16 (ZB c) + i16 (snd3 p) * i16 0) + (FIX16_C_HALF + (FIX16_HALF - 1))) / 2 ^ FIX16)
  = red_diff (cs_of c) 1 p.
Proof.
  destruct p as [[r g] b]. intros (Hr & Hg & Hb). cbn [fst3 snd3 thd3].
  destruct (fwd_i16 c) as (_ & _ & _ & _ & -> & -> & _ & _ & -> & ->).
  rewrite !(i16_small r), !(i16_small g), !(i16_small b) by lia.
  replace (r * YB c + g * ZG c + (b * ZB c + g * 0) + (FIX16_C_HALF + (FIX16_HALF - 1)))
    with (YB c * r + ZG c * g + ZB c * b + (FIX16_C_HALF + (FIX16_HALF - 1))) by ring.
  rewrite <- cr_model by (unfold is_byte; lia). apply pack_fix16.
  change (FIX16_C_HALF + (FIX16_HALF - 1)) with 8421375. unfold ZB, YB.
  destruct c; cbn [YR YG ZG]; lia.
Qed.
Lemma cb4_lane c p : rgb_ok 1020 p ->
  pack32 (i32 (i16 (fst3 p) * i16 (YR c) + i16 (snd3 p) * i16 (YG c)
               + (i16 (thd3 p) * i16 (YB c) + i16 (snd3 p) * i16 0) + (FIX18_C_HALF + (FIX18_HALF - 1))) / 2 ^ FIX18)
  = blue_diff (cs_of c) 4 p.
Proof.
  destruct p as [[r g] b]. intros (Hr & Hg & Hb). cbn [fst3 snd3 thd3].
  destruct (fwd_i16 c) as (_ & _ & _ & _ & -> & _ & -> & -> & _ & ->).
  rewrite !(i16_small r), !(i16_small g), !(i16_small b) by lia.
  replace (r * YR c + g * YG c + (b * YB c + g * 0) + (FIX18_C_HALF + (FIX18_HALF - 1)))
    with (YR c * r + YG c * g + YB c * b + (FIX18_C_HALF + (FIX18_HALF - 1))) by ring.
  rewrite <- cb4_model by lia. apply pack_fix18.
  change (FIX18_C_HALF + (FIX18_HALF - 1)) with 33685503. unfold YB.
  destruct c; cbn [YR YG]; lia.
Qed.
Lemma cr4_lane c p : rgb_ok 1020 p ->
  pack32 (i32 (i16 (fst3 p) * i16 (YB c) + i16 (snd3 p) * i16 (ZG c)
               + (i16 (thd3 p) * i16 (ZB c) + i16 (snd3 p) * i16 0) + (FIX18_C_HALF + (FIX18_HALF - 1))) / 2 ^ FIX18)
  = red_diff (cs_of c) 4 p.
Proof.
  destruct p as [[r g] b]. intros (Hr & Hg & Hb). cbn [fst3 snd3 thd3].
  destruct (fwd_i16 c) as (_ & _ & _ & _ & -> & -> & _ & _ & -> & ->).
  rewrite !(i16_small r), !(i16_small g), !(i16_small b) by lia.
  replace (r * YB c + g * ZG c + (b * ZB c + g * 0) + (FIX18_C_HALF + (FIX18_HALF - 1)))
    with (YB c * r + ZG c * g + ZB c * b + (FIX18_C_HALF + (FIX18_HALF - 1))) by ring.
  rewrite <- cr4_model by lia. apply pack_fix18.
  change (FIX18_C_HALF + (FIX18_HALF - 1)) with 33685503. unfold ZB, YB.
  destruct c; cbn [YR YG ZG]; lia.
Qed.

(** ** Chroma lanes: whether the lane is Cr, and the four pixels of its block *)
Definition lane := (bool * (rgb * rgb * rgb * rgb))%type.
Definition lsum (l : lane) : rgb :=
  let '(_, (p, p', q, q')) := l in add_rgb (add_rgb p p') (add_rgb q q').
Definition lane_ok (l : lane) : Prop :=
  let '(_, (p, p', q, q')) := l in rgb_ok 255 p /\ rgb_ok 255 p' /\ rgb_ok 255 q /\ rgb_ok 255 q'.

Lemma lsum_ok l : lane_ok l -> rgb_ok 1020 (lsum l).
Proof.
  destruct l as [? [[[[[r g] b] [[r' g'] b']] [[s t] u]] [[s' t'] u']]].
  cbn [lane_ok rgb_ok lsum add_rgb]. intuition lia.
Qed.

Definition cw0 (c : colorimetry) (l : lane) : Z := if fst l then fw c 2 else fw c 3.
Definition cw1 (c : colorimetry) (l : lane) : Z := if fst l then fw c 4 else fw c 5.

Lemma chroma_affine c ls :
  add_epi32 (add_epi32 (madd_epi16 (b16 (pairs (fun l => fst3 (lsum l)) (fun l => snd3 (lsum l)) ls)) (b32 (map (cw0 c) ls)))
                       (madd_epi16 (b16 (pairs (fun l => thd3 (lsum l)) (fun l => snd3 (lsum l)) ls)) (b32 (map (cw1 c) ls))))
            (b32 (map (fun _ => FIX18_C_HALF + (FIX18_HALF - 1)) ls))
  = b32 (map (fun l : lane =>
      if fst l then
        i16 (fst3 (lsum l)) * i16 (YB c) + i16 (snd3 (lsum l)) * i16 (ZG c)
               + (i16 (thd3 (lsum l)) * i16 (ZB c) + i16 (snd3 (lsum l)) * i16 0) + (FIX18_C_HALF + (FIX18_HALF - 1))
      else
        i16 (fst3 (lsum l)) * i16 (YR c) + i16 (snd3 (lsum l)) * i16 (YG c)
               + (i16 (thd3 (lsum l)) * i16 (YB c) + i16 (snd3 (lsum l)) * i16 0) + (FIX18_C_HALF + (FIX18_HALF - 1))) ls).
Proof.
  rewrite (b32_pairs (cw0 c) (fun l => if fst l then ZG c else YG c) (fun l => if fst l then YB c else YR c)).
  2:{ intros [[] l]; unfold cw0; cbn [fst]; [apply fw2|apply fw3]. }
  rewrite (b32_pairs (cw1 c) (fun l => 0) (fun l => if fst l then ZB c else YB c)).
  2:{ intros [[] l]; unfold cw1; cbn [fst]; [apply fw4|apply fw5]. }
  rewrite affine_lanes. f_equal. apply map_ext. intros [[] l]; cbn [fst]; auto.
Qed.

Definition lane_val (c : colorimetry) (l : lane) : Z :=
  if fst l then red_diff (cs_of c) 4 (lsum l) else blue_diff (cs_of c) 4 (lsum l).

(** The chroma register before packing: each lane packs to its value. *)
Lemma chroma_lane c l : lane_ok l ->
  pack32 (i32 (if fst l then
        i16 (fst3 (lsum l)) * i16 (YB c) + i16 (snd3 (lsum l)) * i16 (ZG c)
               + (i16 (thd3 (lsum l)) * i16 (ZB c) + i16 (snd3 (lsum l)) * i16 0) + (FIX18_C_HALF + (FIX18_HALF - 1))
      else
        i16 (fst3 (lsum l)) * i16 (YR c) + i16 (snd3 (lsum l)) * i16 (YG c)
               + (i16 (thd3 (lsum l)) * i16 (YB c) + i16 (snd3 (lsum l)) * i16 0) + (FIX18_C_HALF + (FIX18_HALF - 1))) / 2 ^ FIX18)
  = lane_val c l.
Proof.
  intros H. apply lsum_ok in H. unfold lane_val. destruct (fst l); [apply cr4_lane|apply cb4_lane]; auto.
Qed.

(** Adding the neighbours. *)
Lemma sum_lanes (f : rgb -> Z) (g : rgb -> Z) (ls : list lane) :
  (forall p q, f (add_rgb p q) = f p + f q) -> (forall p q, g (add_rgb p q) = g p + g q) ->
  add_epi16 (add_epi16 (b16 (pairs f g (map (fun l => let '(_, (p, _, _, _)) := l in p) ls)))
                       (b16 (pairs f g (map (fun l => let '(_, (_, p, _, _)) := l in p) ls))))
            (add_epi16 (b16 (pairs f g (map (fun l => let '(_, (_, _, p, _)) := l in p) ls)))
                       (b16 (pairs f g (map (fun l => let '(_, (_, _, _, p)) := l in p) ls))))
  = b16 (pairs (fun l => f (lsum l)) (fun l => g (lsum l)) ls).
Proof.
  intros Hf Hg. rewrite !pairs_map, !add16_pairs. apply b16_pairs_ext.
  intros [? [[[p p'] q] q']] _. cbn [lsum]. rewrite !Hf, !Hg. auto.
Qed.

Lemma fst3_add p q : fst3 (add_rgb p q) = fst3 p + fst3 q.
Proof. destruct p as [[? ?] ?], q as [[? ?] ?]; reflexivity. Qed.
Lemma snd3_add p q : snd3 (add_rgb p q) = snd3 p + snd3 q.
Proof. destruct p as [[? ?] ?], q as [[? ?] ?]; reflexivity. Qed.
Lemma thd3_add p q : thd3 (add_rgb p q) = thd3 p + thd3 q.
Proof. destruct p as [[? ?] ?], q as [[? ?] ?]; reflexivity. Qed.

Lemma add_rgb_comm p q : add_rgb p q = add_rgb q p.
Proof.
  destruct p as [[a b] c], q as [[a' b'] c']; cbn [add_rgb].
  rewrite (Z.add_comm a), (Z.add_comm b), (Z.add_comm c). auto.
Qed.

Lemma gpx_ok smp f k : all_bytes f -> rgb_ok 255 (gpx smp f k).
Proof. intros H. unfold gpx, pxf. destruct (sampler_offsets smp) as [[? ?] ?]. repeat split; apply H. Qed.

Definition chroma_raw (c : colorimetry) (l : lane) : Z :=
  i32 (if fst l then
        i16 (fst3 (lsum l)) * i16 (YB c) + i16 (snd3 (lsum l)) * i16 (ZG c)
               + (i16 (thd3 (lsum l)) * i16 (ZB c) + i16 (snd3 (lsum l)) * i16 0) + (FIX18_C_HALF + (FIX18_HALF - 1))
      else
        i16 (fst3 (lsum l)) * i16 (YR c) + i16 (snd3 (lsum l)) * i16 (YG c)
               + (i16 (thd3 (lsum l)) * i16 (YB c) + i16 (snd3 (lsum l)) * i16 0) + (FIX18_C_HALF + (FIX18_HALF - 1))) / 2 ^ FIX18.

Lemma lane_swap c b p p' q q' : lane_val c (b, (p', p, q', q)) = lane_val c (b, (p, p', q, q')).
Proof.
  unfold lane_val. cbn [fst lsum]. rewrite (add_rgb_comm p' p), (add_rgb_comm q' q). auto.
Qed.
