(** Vocabulary of the properties of pixel values, independent of the model of the code. *)
From Coq Require Import ZArith QArith.
From Verif Require Import Fmt Spec Itu.
Open Scope Z_scope.

(** Nominal ranges of luma ([y_min] to [y_max]) and chroma. *)
Definition y_max (cs : color_space) : Z := if limited cs then 235 else 255.
Definition c_min (cs : color_space) : Z := if limited cs then 16 else 1.
Definition c_max (cs : color_space) : Z := if limited cs then 240 else 255.

(** The pixels that the chroma of pixel (x, y) of an image of format [pf] stands for: how
    many they are, and the sums of their components. *)
Definition chroma_area (pf : pixel_format) (px : Z -> Z -> rgb) (x y : Z) : Z * rgb :=
  match pf with
  | I444 => (1, px x y)
  | _ => (4, block_sum px (x / 2) (y / 2))
  end.

(** Each component of the first pixel is at most that of the second one. *)
Definition below (p q : rgb) : Prop :=
  let '(r, g, b) := p in let '(r', g', b') := q in r <= r' /\ g <= g' /\ b <= b'.
Definition within (e : Z * Z * Z) (p q : rgb) : Prop :=
  let '(er, eg, eb) := e in let '(r, g, b) := p in let '(r', g', b') := q in
  Z.abs (r - r') <= er /\ Z.abs (g - g') <= eg /\ Z.abs (b - b') <= eb.

(** [out] is the saturated [v] / 64. *)
Definition saturated (v out : Z) : Prop :=
  (v < 0 -> out = 0) /\ (255 * 64 <= v -> out = 255) /\ (0 <= v <= 255 * 64 -> out = v / 64).

(** The three components of a pixel are within [e] of the exact ones. *)
Definition all_near (e : Q) (p : rgb) (q : qrgb) : Prop :=
  let '(a, b, c) := p in let '(x, y, z) := q in near e a x /\ near e b y /\ near e c z.
Definition q_clamp_rgb (q : qrgb) : qrgb := let '(a, b, c) := q in (q_clamp a, q_clamp b, q_clamp c).

(** Distances to the exact inverse transform, and of a round trip. *)
Definition rgb_error (cs : color_space) : Q := if limited cs then 54 # 100 else 24 # 10.
Definition trip_error (cs : color_space) : Z * Z * Z :=
  match cs with Bt601 | Bt709 => (1, 1, 2) | Bt601FR => (3, 2, 3) | _ => (3, 1, 3) end.
