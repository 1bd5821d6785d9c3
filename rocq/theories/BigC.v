(** The C function on two targets that only differ in the byte order of words. *)
From Coq Require Import ZArith List Bool Lia.
Import ListNotations.
From Verif Require Import Base Fmt Common Scalar Wrappers CpuInfo Lib Sets Spec SetSpec ApiSpec Api Exec LibFacts ConvertProofs
  EndianSpec Trace CourseSpec BigFacts.
Open Scope Z_scope.

Section Calls.
Variables T T' : target.
Hypothesis HA : alike T T'.

Lemma alike_isize : isize_max T = isize_max T'.
Proof. unfold isize_max. destruct HA as [-> _]. reflexivity. Qed.

Lemma image_same w h src dst ss a ds b m : planes_u32 src -> planes_u32 dst -> byte_wise src dst w ->
  convert_image (converters X86) w h (format_of src) ss a (format_of dst) ds b T m =
  convert_image (converters X86) w h (format_of src) ss a (format_of dst) ds b T' m.
Proof.
  intros Us Ud B.
  destruct (convert_image_cases (converters X86) w h src ss a dst ds b T m Us Ud) as [[N ->]|[(V1 & V2 & N & ->)|(V1 & V2 & S & ->)]];
  destruct (convert_image_cases (converters X86) w h src ss a dst ds b T' m Us Ud) as [[N' ->]|[(V1' & V2' & N' & ->)|(V1' & V2' & S' & ->)]];
    try reflexivity; try tauto; try congruence.
  apply same_run. unfold call_converter. apply rel_bind_eq; [|intros; apply rel_ret].
  apply converter_same; [exact HA|]. unfold conv_of.
  destruct (is_rgb (i_pf src)) eqn:Rs, (is_rgb (i_pf dst)) eqn:Rd; try exact I.
  destruct B as [B|[B|[B B']]]; try congruence.
  destruct (supported_rgb _ _ S Rs Rd) as [[-> _]|[[-> _]|[_ E]]]; auto. congruence.
Qed.

Lemma image_outcome w h src dst ss a ds b m : planes_u32 src -> planes_u32 dst ->
  same_outcome (convert_image (converters X86) w h (format_of src) ss a (format_of dst) ds b T m)
               (convert_image (converters X86) w h (format_of src) ss a (format_of dst) ds b T' m).
Proof.
  intros Us Ud.
  destruct (is_rgb (i_pf src) && is_rgb (i_pf dst)) eqn:R.
  2:{ rewrite image_same by (try assumption; unfold byte_wise; destruct (is_rgb (i_pf src)); auto).
      destruct (convert_image (converters X86) w h (format_of src) ss a (format_of dst) ds b T' m); cbn; auto. }
  apply andb_true_iff in R. destruct R as [Rs Rd].
  destruct (convert_image_cases (converters X86) w h src ss a dst ds b T m Us Ud) as [[N ->]|[(V1 & V2 & N & ->)|(V1 & V2 & S & ->)]];
  destruct (convert_image_cases (converters X86) w h src ss a dst ds b T' m Us Ud) as [[N' ->]|[(V1' & V2' & N' & ->)|(V1' & V2' & S' & ->)]];
    try (cbn; auto; fail); try tauto; try congruence.
  apply rel_run. unfold call_converter. apply rel_bind_eq; [|intros; apply rel_ret].
  apply converter_like; [exact HA|]. unfold conv_of. rewrite Rs, Rd. exact I.
Qed.

Lemma c_same w h src dst sb db error : 0 <= w < 2 ^ 32 -> 0 <= h < 2 ^ 32 -> planes_u32 src -> planes_u32 dst ->
  i_planes src <= Z.of_nat (length sb) -> i_planes dst <= Z.of_nat (length db) ->
  same_outcome (c_convert (converters X86) T w h src dst sb db error) (c_convert (converters X86) T' w h src dst sb db error) /\
  (byte_wise src dst w ->
   c_convert (converters X86) T w h src dst sb db error = c_convert (converters X86) T' w h src dst sb db error).
Proof.
  intros W H Us Ud Ls Ld.
  rewrite (c_convert_eq T (converters X86) w h W H src dst sb db error Us Ud Ls Ld).
  rewrite (c_convert_eq T' (converters X86) w h W H src dst sb db error Us Ud Ls Ld).
  unfold c_slices. rewrite alike_isize. split.
  - match goal with |- context [run (convert_image _ _ _ _ ?ss ?a _ ?ds ?b) T ?m] =>
      pose proof (image_outcome w h src dst ss a ds b m Us Ud) as E end.
    destruct (convert_image _ _ _ _ _ _ _ _ _ T _) as [o m1|f], (convert_image _ _ _ _ _ _ _ _ _ T' _) as [o' m2|f']; cbn in *; try contradiction.
    + destruct E as (-> & E1 & E2). auto.
    + exact E.
  - intros B. rewrite (image_same _ _ _ _ _ _ _ _ _ Us Ud B). reflexivity.
Qed.
End Calls.
