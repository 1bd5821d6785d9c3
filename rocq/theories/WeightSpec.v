(** The coefficients of BT.601 and BT.709 in fixed point, derived from the definitions of [Itu].
    Independent of the model of the code. *)
From Coq Require Import ZArith QArith Qround.
From Verif Require Import Fmt Itu.
Open Scope Q_scope.

(** The nearest integer. *)
Definition nearest (q : Q) : Z := Qfloor (q + (1 # 2)).

(** Exact coefficients of r, g, b in y, cb, cr; components are in 0 .. 255. *)
Definition y_coef (cs : color_space) : qrgb :=
  let s := y_span cs / 255 in (s * kr cs, s * kg cs, s * kb cs).
Definition cb_coef (cs : color_space) : qrgb :=
  let s := c_span cs / 255 / (2 * (1 - kb cs)) in (- s * kr cs, - s * kg cs, s * (1 - kb cs)).
Definition cr_coef (cs : color_space) : qrgb :=
  let s := c_span cs / 255 / (2 * (1 - kr cs)) in (s * (1 - kr cs), - s * kg cs, - s * kb cs).

(** Exact coefficients of the inverse: y to r, g and b, cr to r, cr and cb to g (subtracted), cb
    to b. *)
Definition inv_y (cs : color_space) : Q := 255 / y_span cs.
Definition inv_cr_r (cs : color_space) : Q := 255 / c_span cs * (2 * (1 - kr cs)).
Definition inv_cr_g (cs : color_space) : Q := 255 / c_span cs * (2 * (1 - kr cs)) * (kr cs / kg cs).
Definition inv_cb_g (cs : color_space) : Q := 255 / c_span cs * (2 * (1 - kb cs)) * (kb cs / kg cs).
Definition inv_cb_b (cs : color_space) : Q := 255 / c_span cs * (2 * (1 - kb cs)).

(** Middle of the chroma codes of the inverse transform. *)
Definition chroma_middle (cs : color_space) : Z := if limited cs then 128 else 127.
