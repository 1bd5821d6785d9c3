(** The decoded pixels that are wrong. *)
From Coq Require Import ZArith List.
From Verif Require Import Fmt CpuInfo Spec SetSpec ApiSpec WhereSpec.
Open Scope Z_scope.

(** Pixel ([x], [y]) is decoded by vector code of SSE2 or AVX2 and its blue, before it is clamped,
    is 512 or more. *)
Definition overflows (set : instruction_set) (src dst : image) (w h : Z) (sb : list (list Z)) (x y : Z) : Prop :=
  blue_wraps set (i_pf src) (i_pf dst) w x /\ ~ blue_fits (i_cs src) (pixel src w h sb x y).

(** What luma [l] with neutral chroma is decoded to in the full range spaces. *)
Definition full_grey (cs : color_space) (l : Z) : rgb :=
  match cs with
  | Bt601FR => (Z.min 255 (l + 1), Z.max 0 (l - 1), Z.min 255 (l + 2))
  | _ => (Z.min 255 (l + 2), Z.max 0 (l - 1), Z.min 255 (l + 2))
  end.
