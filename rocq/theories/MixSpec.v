(** Mixing two pictures, as a cross-fade does. *)
From Coq Require Import ZArith.
From Verif Require Import Spec.
Open Scope Z_scope.

(** [z] is the mean of [x] and [y], weighted [a] to [b], up to [k] halves. *)
Definition mean (a b k x y z : Z) : Prop := 2 * Z.abs ((a + b) * z - (a * x + b * y)) <= k * (a + b).

(** The same of three components. *)
Definition mixed (a b k : Z) (p q r : rgb) : Prop :=
  let '(p1, p2, p3) := p in let '(q1, q2, q3) := q in let '(r1, r2, r3) := r in
  mean a b k p1 q1 r1 /\ mean a b k p2 q2 r2 /\ mean a b k p3 q3 r3.

(** Not clamped. *)
Definition free (c : Z) : Prop := 0 < c < 255.
