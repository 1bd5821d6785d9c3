(** Where the vector code of an instruction set gives other bytes than the portable code. *)
From Coq Require Import ZArith.
From Verif Require Import Fmt CpuInfo Spec SetSpec.
Open Scope Z_scope.

(** RGB to YCbCr: column [x] of an image [w] columns wide is done by code that rounds exact
    halves of the chroma upwards. *)
Definition halves_up (set : instruction_set) (w x : Z) : Prop := set = Neon /\ x < 8 * (w / 8).

(** YCbCr to RGB: column [x] is done by code in which blue components of 512 or more overflow. *)
Definition blue_wraps (set : instruction_set) (spf dpf : pixel_format) (w x : Z) : Prop :=
  (set = Sse2 \/ set = Avx2) /\ x < vector_part set spf dpf w.
