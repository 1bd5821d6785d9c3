(** What the output of genweights.py is compared with. *)
From Coq Require Import ZArith List Bool.
Import ListNotations.
From Verif Require Import Fmt Common Spec SetSpec PixelSpec.
From Verif Require GenWeights.
Import GenWeights.
Open Scope Z_scope.

(** The constants of a colorimetry, in the order of common.rs. *)
Definition constants (c : colorimetry) : list Z :=
  [XR c; XG c; XB c; YR c; YG c; ZG c; XXYM c; RCRM c; GCRM c; GCBM c; BCBM c; RN c; GP c; BN c].

(** The weights of a colour space, as the script names them. *)
Definition colorimetry_of (cs : color_space) : colorimetry :=
  match cs with Bt709 => C709 | Bt601FR => C601FR | Bt709FR => C709FR | _ => C601 end.
Definition printed_for (cs : color_space) : printed :=
  let c := colorimetry_of cs in Printed (XR c) (XG c) (XB c) (YR c) (YG c) (ZG c).

(** [rows] are the pixels of an image of [w] x [h]. *)
Definition table_of (rows : list (list rgba)) (w h : Z) (px : Z -> Z -> rgb) : Prop :=
  forall x y, 0 <= x < w -> 0 <= y < h ->
  px x y = let '(r, g, b, _) := src_at rows (Z.to_nat y) (Z.to_nat x) in (r, g, b).
Definition table_size (rows : list (list rgba)) (w h : Z) : Prop :=
  Z.of_nat (length rows) = h /\ Forall (fun row => Z.of_nat (length row) = w) rows.

(** No chroma sample of the image is half way between two integers. *)
Definition no_ties (pf : pixel_format) (cs : color_space) (w h : Z) (px : Z -> Z -> rgb) : Prop :=
  forall x y, 0 <= x < w -> 0 <= y < h ->
  let '(n, p) := chroma_area pf px x y in ~ tie (cb_weights cs) n p /\ ~ tie (cr_weights cs) n p.
