(** One colour encoded as I444 and decoded again, and that many times. *)
From Coq Require Import ZArith.
From Verif Require Import Base Fmt Spec.
Open Scope Z_scope.

(** The YCbCr samples of colour [p]; chroma that is exactly between two values goes to the
    upper one if [up] (vector code of NEON), to the lower one otherwise. *)
Definition encoded (up : bool) (cs : color_space) (p : rgb) : Z * Z * Z :=
  let half := if up then round_up else round_down in
  (luma cs p, 128 + half (dot (cb_weights cs) p) 65536, 128 + half (dot (cr_weights cs) p) 65536).

(** And the colour that is decoded from them. *)
Definition recoded (up : bool) (cs : color_space) (p : rgb) : rgb :=
  let '(l, cb, cr) := encoded up cs p in ycc_to_rgb cs l cb cr.

(** [q] is what is left of [p] after [n] times. *)
Inductive recodings (cs : color_space) (p : rgb) : nat -> rgb -> Prop :=
| Recoded_0 : recodings cs p O p
| Recoded_S n q up : recodings cs p n q -> recodings cs p (S n) (recoded up cs q).

(** Neither chroma value of [p] is exactly between two values. *)
Definition no_tie (cs : color_space) (p : rgb) : Prop :=
  dot (cb_weights cs) p mod 65536 <> 32768 /\ dot (cr_weights cs) p mod 65536 <> 32768.
