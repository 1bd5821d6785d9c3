(** The pixel arithmetic of the vector kernels where it differs from [Spec]. *)
From Coq Require Import ZArith List Bool.
Import ListNotations.
From Verif Require Import Fmt Spec.
Open Scope Z_scope.

(** NEON rounds exact halves of the chroma upwards. *)
Definition blue_diff_up (cs : color_space) (n : Z) (p : rgb) : Z :=
  128 + round_up (dot (cb_weights cs) p) (n * 65536).
Definition red_diff_up (cs : color_space) (n : Z) (p : rgb) : Z :=
  128 + round_up (dot (cr_weights cs) p) (n * 65536).
Definition neon_arith : arith := Arith luma blue_diff_up red_diff_up ycc_to_rgb.

(** SSE2 and AVX2 keep the components of a pixel in signed 16-bit numbers before they
    shift and clamp them: a component of 512 or more wraps around to a negative one. *)
Definition wrap16 (x : Z) : Z := (x + 32768) mod 65536 - 32768.
Definition ycc_to_rgb_wrap (cs : color_space) (y cb cr : Z) : rgb :=
  let '(r, g, b) := rgb64 cs y cb cr in
  (clamp255 (wrap16 r / 64), clamp255 (wrap16 g / 64), clamp255 (wrap16 b / 64)).
Definition x86_arith : arith := Arith luma blue_diff red_diff ycc_to_rgb_wrap.

(** The columns below [v] are done by a vector kernel, the others by the portable one. *)
Definition left_cols (v : Z) (ar : arith) : columns := fun x => if x <? v then ar else spec_arith.
