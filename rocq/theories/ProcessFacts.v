(** Facts behind the theorems on processes. *)
From Coq Require Import ZArith List Bool String Ascii Lia ZifyBool.
Import ListNotations.
From Verif Require Import Base Fmt Dispatch Common Wrappers CpuInfo Spec ApiSpec Lib Sets Api Process ProcessSpec ConvertProofs ResultFacts PropFacts.
Open Scope Z_scope.

(** ** Sessions *)

(** The checks come before the converter. *)
Lemma invalid_value_impl impl impl' w h sf ss sb df ds db T m m' :
  convert_image impl w h sf ss sb df ds db T m = Ok (Err InvalidValue) m' ->
  convert_image impl' w h sf ss sb df ds db T m = Ok (Err InvalidValue) m'.
Proof.
  unfold convert_image, bind, ret. cbv zeta.
  destruct (xorb _ _ || xorb _ _); [auto|cbn [run]].
  destruct (is_compatible (f_pf sf) w h (u32 (f_planes sf - 1)) T m) as [b1 m1|]; [|auto].
  destruct (negb b1); [auto|cbn [run]].
  destruct (is_compatible (f_pf df) w h (u32 (f_planes df - 1)) T m1) as [b2 m2|]; [|auto].
  destruct (negb b2); [auto|cbn [run]].
  destruct (zlen dispatch_table <=? _); [auto|cbn [run]].
  destruct (index dispatch_table _ T m2) as [[c|] m3|]; [|auto..]; cbn [run].
  destruct (impl c _ _ _ _ _ _ _ _ T m3) as [[|] m4|]; discriminate.
Qed.

Lemma session_set cpus t ctx calls : session_from cpus t (Some ctx) calls = map (answer ctx) calls.
Proof.
  revert t. induction calls as [|c calls IH]; intros t; [reflexivity|].
  cbn [session_from map]. unfold api_step, context_global.
  destruct c as [|T w h src dst sb db]; cbn [answer]; [rewrite IH; reflexivity|].
  destruct (convert (converters (snd ctx)) T w h src dst sb db) as [[|[| |]] m|f]; rewrite IH; reflexivity.
Qed.

Lemma session_unset cpus t calls : exists ctx, (exists t', ctx = cpu_get (cpus t')) /\
  session_from cpus t None calls = map (answer ctx) calls.
Proof.
  revert t. induction calls as [|c calls IH]; intros t; [exists (cpu_get (cpus t)); eauto|].
  cbn [session_from map]. unfold api_step, context_global. cbv zeta.
  destruct c as [|T w h src dst sb db].
  - exists (cpu_get (cpus t)). split; [eauto|]. rewrite session_set. reflexivity.
  - destruct (convert (converters (snd (cpu_get (cpus t)))) T w h src dst sb db) as [[|[| |]] m|f] eqn:E;
    try (exists (cpu_get (cpus t)); split; [eauto|]; rewrite session_set; cbn [answer]; rewrite E; reflexivity).
    destruct (IH (S t)) as (ctx & Hc & Hs). exists ctx. split; [exact Hc|].
    rewrite Hs. cbn [answer]. f_equal. f_equal. symmetry. unfold convert in *. eapply invalid_value_impl; eauto.
Qed.

Lemma session_one_context cpus calls : exists ctx, (exists t, ctx = cpu_get (cpus t)) /\
  session cpus calls = map (answer ctx) calls.
Proof. apply session_unset. Qed.

(** ** Test sets *)

Lemma used_set_supported T ctx v : has_set (snd ctx) (used_set T ctx v) = true.
Proof.
  unfold used_set. set (i := v mod usz T). clearbody i.
  destruct ctx as [m s]. cbn [snd].
  assert (D : (if i <? 3 then nth (Z.to_nat i) (test_converters s) None else None) = None \/
              exists k, (k < 3)%nat /\ (if i <? 3 then nth (Z.to_nat i) (test_converters s) None else None) = nth k (test_converters s) None).
  { destruct (Z.ltb_spec i 3); [|auto]. right. exists (Z.to_nat i). split; [lia|reflexivity]. }
  destruct D as [-> | (k & Hk & ->)]; [destruct s; reflexivity|].
  destruct s, k as [|[|[|k]]]; try lia; reflexivity.
Qed.

Lemma used_set_requested T ctx s : is_target T -> has_set (snd ctx) s = true ->
  used_set T ctx (initialize_with_instruction_set (set_name s)) = s.
Proof.
  intros HT HS. destruct ctx as [m b]. cbn [snd] in HS. unfold used_set. cbn [snd].
  assert (E : initialize_with_instruction_set (set_name s) mod usz T = initialize_with_instruction_set (set_name s)).
  { apply Z.mod_small. destruct HT as [[-> _]|[-> _]]; destruct s; vm_compute; split; congruence. }
  rewrite E. destruct s, b; try discriminate; reflexivity.
Qed.

Lemma used_set_default T ctx : is_target T -> used_set T ctx TEST_SET_INIT = snd ctx.
Proof. intros [[H _] | [H _]]; unfold used_set; rewrite H; reflexivity. Qed.

Lemma used_set_unknown T ctx name : is_target T -> (forall s, name <> set_name s) ->
  used_set T ctx (initialize_with_instruction_set name) = snd ctx.
Proof.
  intros HT HN. unfold initialize_with_instruction_set.
  destruct (String.eqb_spec name "x86"); [exfalso; exact (HN X86 e)|].
  destruct (String.eqb_spec name "sse2"); [exfalso; exact (HN Sse2 e)|].
  destruct (String.eqb_spec name "neon"); [exfalso; exact (HN Neon e)|].
  cbn [orb]. unfold used_set. replace (2 mod usz T) with 2 by (destruct HT as [[-> _]|[-> _]]; reflexivity).
  destruct ctx as [m s]. destruct s; reflexivity.
Qed.

(** ** C strings *)

Lemma c_text_new s l : cstring_new s = Some l -> c_text l = Some s.
Proof.
  unfold cstring_new. destruct (existsb _ _) eqn:E; [discriminate|]. intros [= <-].
  induction s as [|a s IH]; [reflexivity|]. cbn [list_ascii_of_string app c_text existsb] in *.
  apply orb_false_iff in E. destruct E as [E1 E2]. rewrite Ascii.eqb_sym, E1, (IH E2). reflexivity.
Qed.

Lemma describe_no_nul ctx : exists l, cstring_new (describe_acceleration ctx) = Some l.
Proof. destruct ctx as [[] []]; eexists; vm_compute; reflexivity. Qed.

Definition heap_ok (hp : c_heap) : Prop :=
  Forall (fun e => fst e <> 0 /\ exists s, c_text (snd e) = Some s) hp.

Lemma heap_program hp : c_program hp -> heap_ok hp.
Proof.
  induction 1 as [|ctx p hp _ IH P L|p hp hp' _ IH U].
  - constructor.
  - unfold dcp_describe_acceleration. destruct (cstring_new _) as [l|] eqn:E; [|exact IH].
    constructor; [|exact IH]. split; [exact P|]. eexists. apply c_text_new. exact E.
  - unfold dcp_unref_string in U. destruct (p =? 0); [congruence|]. destruct (live hp p); [|discriminate].
    injection U as <-. unfold heap_ok in *. rewrite Forall_forall in *. intros e He. apply filter_In in He. apply IH. tauto.
Qed.

Lemma not_live_string hp p : live hp p = false -> c_string hp p = None.
Proof.
  unfold live, c_string. induction hp as [|e hp IH]; [reflexivity|]. cbn [existsb find].
  destruct (fst e =? p); [discriminate|]. exact IH.
Qed.

Lemma live_string hp p : c_program hp -> live hp p = true -> exists s, c_string hp p = Some s.
Proof.
  intros HC. apply heap_program in HC. unfold live, c_string. induction HC as [|e hp He _ IH]; [discriminate|].
  cbn [existsb find]. destruct (fst e =? p); [intros _; apply He|exact IH].
Qed.

Lemma describe_pointer ctx p hp : c_program hp -> p <> 0 -> live hp p = false ->
  let '(q, hp') := dcp_describe_acceleration ctx p hp in
  q <> 0 /\ c_string hp' q = Some (describe_acceleration ctx) /\
  (forall a s, c_string hp a = Some s -> c_string hp' a = Some s).
Proof.
  intros HC P L. unfold dcp_describe_acceleration. destruct (describe_no_nul ctx) as [l E]. rewrite E.
  split; [exact P|]. split.
  - unfold c_string. cbn [find fst snd]. rewrite Z.eqb_refl. apply c_text_new. exact E.
  - intros a s Hs. unfold c_string. cbn [find fst]. destruct (Z.eqb_spec p a) as [<-|]; [|exact Hs].
    rewrite not_live_string in Hs by exact L. discriminate.
Qed.

Lemma filter_others p (hp : c_heap) : live hp p = false -> filter (fun e => negb (fst e =? p)) hp = hp.
Proof.
  unfold live. induction hp as [|e hp IH]; [reflexivity|]. cbn [existsb filter].
  destruct (fst e =? p); [discriminate|]. cbn [negb orb]. intros H. rewrite IH by exact H. reflexivity.
Qed.

Lemma unref_described ctx p hp : c_program hp -> p <> 0 -> live hp p = false ->
  let '(q, hp') := dcp_describe_acceleration ctx p hp in dcp_unref_string q hp' = Some hp.
Proof.
  intros HC P L. unfold dcp_describe_acceleration. destruct (describe_no_nul ctx) as [l E]. rewrite E.
  unfold dcp_unref_string. destruct (Z.eqb_spec p 0); [contradiction|]. unfold live at 1. cbn [existsb filter fst].
  rewrite Z.eqb_refl. cbn [orb negb]. rewrite filter_others by exact L. reflexivity.
Qed.

Lemma find_filter p q (l : c_heap) : q <> p ->
  find (fun e => fst e =? q) (filter (fun e => negb (fst e =? p)) l) = find (fun e => fst e =? q) l.
Proof.
  intros N. induction l as [|e l IH]; [reflexivity|]. cbn [filter find].
  destruct (Z.eqb_spec (fst e) p) as [Ep|Ep]; cbn [negb].
  - destruct (Z.eqb_spec (fst e) q); [congruence|]. exact IH.
  - cbn [find]. rewrite IH. reflexivity.
Qed.

(** Freeing a string leaves the others; null is ignored. *)
Lemma unref_string p hp s : c_program hp -> c_string hp p = Some s ->
  exists hp', dcp_unref_string p hp = Some hp' /\ c_string hp' p = None /\
    (forall q, q <> p -> c_string hp' q = c_string hp q).
Proof.
  intros HC Hs. apply heap_program in HC. unfold c_string in Hs.
  destruct (find _ hp) as [e|] eqn:Ef; [|discriminate]. apply find_some in Ef. destruct Ef as [Hi He].
  assert (Hp : fst e <> 0) by (unfold heap_ok in HC; rewrite Forall_forall in HC; apply (HC e Hi)).
  unfold dcp_unref_string. destruct (Z.eqb_spec p 0); [lia|].
  replace (live hp p) with true by (symmetry; apply existsb_exists; eauto).
  eexists. split; [reflexivity|]. split.
  - unfold c_string. destruct (find _ (filter _ _)) as [x|] eqn:E2; [|reflexivity].
    apply find_some in E2. destruct E2 as [E2 E3]. apply filter_In in E2. destruct E2 as [_ E2]. lia.
  - intros q Hq. unfold c_string. rewrite find_filter by exact Hq. reflexivity.
Qed.

Lemma x86_not_neon cpuid : snd (cpu_get (Cpu_x86 cpuid)) <> Neon.
Proof.
  cbn [cpu_get]. unfold get_x86. cbv zeta. destruct (eax _ =? 0); [discriminate|].
  destruct (Z.land (edx _) _ =? 0); [discriminate|]. cbn [snd]. destruct (Z.land _ _ =? 0); discriminate.
Qed.

Lemma x86_same cpuid cpuid' T T' w h src dst sb db m m' :
  successful_call (converters (snd (cpu_get (Cpu_x86 cpuid)))) T w h src dst sb db m ->
  successful_call (converters (snd (cpu_get (Cpu_x86 cpuid')))) T' w h src dst sb db m' ->
  is_rgb (i_pf src) = true -> m = m'.
Proof. intros H H' R. eapply c25; eauto using x86_not_neon. Qed.
