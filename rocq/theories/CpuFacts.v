(** Proofs about cpu_info.rs. *)
From Coq Require Import String ZArith List Bool Lia ZifyBool.
Import ListNotations.
From Verif Require Import Base CpuInfo Lib CpuSpec CApiFacts.
Open Scope Z_scope.

Lemma selected_reported c : reported c (snd (cpu_get c)).
Proof.
  destruct c as [cpuid|[]|]; [|exact eq_refl|exact I|exact I].
  cbn [cpu_get]. pose proof (get_x86_cases cpuid) as H. cbv zeta in H.
  destruct (snd (get_x86 cpuid)); cbn [reported]; tauto.
Qed.

Lemma selected_best c :
  (snd (cpu_get c) = X86 -> forall s, reported c s -> s = X86) /\
  (snd (cpu_get c) = Sse2 -> reported c Avx2 -> fst (cpu_get c) = Amd) /\
  (snd (cpu_get c) = Avx2 -> fst (cpu_get c) <> Amd).
Proof.
  destruct c as [cpuid|[]|]; cbn [cpu_get fst snd].
  - pose proof (get_x86_cases cpuid) as H. cbv zeta in H. split; [|split].
    + intros E s R. rewrite E in H. destruct s; cbn [reported] in R; [reflexivity|..]; exfalso;
        destruct H as [H|H]; unfold bit in H; intuition congruence.
    + intros E (R1 & R2 & R3). revert E. unfold get_x86.
      destruct (eax (cpuid 0) =? 0) eqn:E0; [lia|].
      rewrite !land_bit by lia. unfold bit. rewrite R2. cbn [negb].
      set (m := if compare_cpu_manufacturer _ GenuineIntel =? 0 then Intel else _).
      destruct m; cbn [fst snd]; rewrite ?land_bit by lia; unfold bit; rewrite ?R3; cbn [negb];
        [discriminate|discriminate|reflexivity].
    + intros E. rewrite E in H. tauto.
  - repeat split; discriminate.
  - split; [|split]; try discriminate. intros _ s R. destruct s; cbn [reported] in R; tauto || discriminate R || reflexivity.
  - split; [|split]; try discriminate. intros _ s R. destruct s; cbn [reported] in R; tauto || reflexivity.
Qed.

Lemma le_bytes_eq x y : 0 <= x < 2 ^ 32 -> 0 <= y < 2 ^ 32 -> le_bytes x = le_bytes y -> x = y.
Proof.
  intros Hx Hy H. unfold le_bytes in H. cbn [map] in H.
  apply (f_equal (fun l => (nth 0 l 0, nth 1 l 0, nth 2 l 0, nth 3 l 0))) in H. cbn [nth] in H.
  rewrite !pair_equal_spec in H. destruct H as [[[H0 H1] H2] H3].
  change (256 ^ 0) with 1 in *. change (256 ^ 1) with 256 in *. change (256 ^ 2) with 65536 in *.
  change (256 ^ 3) with 16777216 in *. change (2 ^ 32) with 4294967296 in *.
  Z.div_mod_to_equations. lia.
Qed.

Lemma app_eq_4 (a a' b b' : list Z) : length a = length a' -> a ++ b = a' ++ b' -> a = a' /\ b = b'.
Proof.
  revert a'. induction a as [|x a IH]; intros [|y a'] L H; cbn in L; try discriminate; [auto|].
  cbn [app] in H. injection H as -> H. destruct (IH a') as [-> ->]; auto.
Qed.

Lemma u32_diff x y : 0 <= x < 2 ^ 32 -> 0 <= y < 2 ^ 32 -> (u32 (x - y) = 0 <-> x = y).
Proof.
  intros Hx Hy. unfold u32. split; intros H; [|rewrite H, Z.sub_diag; reflexivity].
  change (2 ^ 32) with 4294967296 in *. Z.div_mod_to_equations. lia.
Qed.

(** [compare_cpu_manufacturer] answers 0 for exactly one vendor. *)
Lemma compare_exact cpuid name b d c : regs_u32 (cpuid 0) ->
  0 <= b < 2 ^ 32 -> 0 <= d < 2 ^ 32 -> 0 <= c < 2 ^ 32 ->
  four_cc (nth 0 name 0) (nth 1 name 0) (nth 2 name 0) (nth 3 name 0) = b ->
  four_cc (nth 4 name 0) (nth 5 name 0) (nth 6 name 0) (nth 7 name 0) = d ->
  four_cc (nth 8 name 0) (nth 9 name 0) (nth 10 name 0) (nth 11 name 0) = c ->
  name = le_bytes b ++ le_bytes d ++ le_bytes c ->
  (compare_cpu_manufacturer (cpuid 0) name = 0 <-> vendor_text cpuid = name).
Proof.
  intros (Ra & Rb & Rc & Rd) Hb Hd Hc E1 E2 E3 En. unfold compare_cpu_manufacturer. cbv zeta.
  rewrite E1, E2, E3. rewrite !Z.lor_eq_0_iff, !u32_diff by assumption.
  unfold vendor_text. rewrite En. split.
  - intros [[-> ->] ->]. reflexivity.
  - intros H. apply app_eq_4 in H as [H1 H]; [|reflexivity]. apply app_eq_4 in H as [H2 H3]; [|reflexivity].
    apply le_bytes_eq in H1; [|assumption..]. apply le_bytes_eq in H2; [|assumption..]. apply le_bytes_eq in H3; [|assumption..].
    auto.
Qed.

Lemma fst_get_x86 cpuid : fst (get_x86 cpuid) =
  if eax (cpuid 0) =? 0 then Unknown else
  if compare_cpu_manufacturer (cpuid 0) GenuineIntel =? 0 then Intel
  else if (compare_cpu_manufacturer (cpuid 0) AuthenticAMD =? 0)
          || (compare_cpu_manufacturer (cpuid 0) AMDisbetter =? 0) then Amd
  else Unknown.
Proof.
  unfold get_x86. destruct (eax (cpuid 0) =? 0); [reflexivity|].
  destruct (Z.land (edx (cpuid 1)) (Z.shiftl 1 26) =? 0); reflexivity.
Qed.

Lemma vendor_exact cpuid : regs_u32 (cpuid 0) ->
  (fst (get_x86 cpuid) = Intel <-> eax (cpuid 0) <> 0 /\ vendor_text cpuid = text "GenuineIntel") /\
  (fst (get_x86 cpuid) = Amd <-> eax (cpuid 0) <> 0 /\
     (vendor_text cpuid = text "AuthenticAMD" \/ vendor_text cpuid = text "AMDisbetter!")).
Proof.
  intros R. rewrite fst_get_x86.
  pose proof (compare_exact cpuid GenuineIntel 0x756e6547 0x49656e69 0x6c65746e R ltac:(lia) ltac:(lia) ltac:(lia) eq_refl eq_refl eq_refl eq_refl) as A.
  pose proof (compare_exact cpuid AuthenticAMD 0x68747541 0x69746e65 0x444d4163 R ltac:(lia) ltac:(lia) ltac:(lia) eq_refl eq_refl eq_refl eq_refl) as B.
  pose proof (compare_exact cpuid AMDisbetter 0x69444d41 0x74656273 0x21726574 R ltac:(lia) ltac:(lia) ltac:(lia) eq_refl eq_refl eq_refl eq_refl) as C.
  change (text "GenuineIntel") with GenuineIntel. change (text "AuthenticAMD") with AuthenticAMD.
  change (text "AMDisbetter!") with AMDisbetter.
  assert (N1 : GenuineIntel <> AuthenticAMD) by discriminate.
  assert (N2 : GenuineIntel <> AMDisbetter) by discriminate.
  destruct (eax (cpuid 0) =? 0) eqn:E0.
  { split; (split; [discriminate|intros [H _]; lia]). }
  assert (E : eax (cpuid 0) <> 0) by lia.
  destruct (Z.eqb_spec (compare_cpu_manufacturer (cpuid 0) GenuineIntel) 0) as [E1|E1].
  { apply A in E1. split; split; [auto|reflexivity|discriminate|intros [_ [H|H]]; congruence]. }
  destruct (Z.eqb_spec (compare_cpu_manufacturer (cpuid 0) AuthenticAMD) 0) as [E2|E2]; cbn [orb].
  { split; split; [discriminate|tauto|tauto|reflexivity]. }
  destruct (Z.eqb_spec (compare_cpu_manufacturer (cpuid 0) AMDisbetter) 0) as [E3|E3].
  { split; split; [discriminate|tauto|tauto|reflexivity]. }
  split; (split; [discriminate|tauto]).
Qed.

Lemma description c : described_as (describe_acceleration c)
  [("cpu-manufacturer", vendor_word (fst c)); ("instruction-set", set_word (snd c))]%string.
Proof.
  exists ("cpu-manufacturer:" ++ vendor_word (fst c) ++ ",instruction-set:" ++ set_word (snd c))%string.
  destruct c as [m s]; destruct m, s; split; reflexivity.
Qed.
