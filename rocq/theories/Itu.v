(** The definitions of ITU-R BT.601 and BT.709 (limited and full range), over the
    rational numbers and independent of the code. *)
From Coq Require Import ZArith QArith Qabs Qminmax.
From Verif Require Import Fmt Spec.
Open Scope Q_scope.

(** Luma coefficients of red and blue. *)
Definition kr (cs : color_space) : Q :=
  match cs with Bt601 | Bt601FR => 299 # 1000 | _ => 2126 # 10000 end.
Definition kb (cs : color_space) : Q :=
  match cs with Bt601 | Bt601FR => 114 # 1000 | _ => 722 # 10000 end.
Definition kg (cs : color_space) : Q := 1 - kr cs - kb cs.

(** Quantisation: luma takes [y_black .. y_black + y_span], chroma takes
    [128 - c_span / 2 .. 128 + c_span / 2]. *)
Definition limited (cs : color_space) : bool := match cs with Bt601 | Bt709 => true | _ => false end.
Definition y_black (cs : color_space) : Q := if limited cs then 16 else 0.
Definition y_span (cs : color_space) : Q := if limited cs then 219 else 255.
Definition c_span (cs : color_space) : Q := if limited cs then 224 else 255.

Definition qrgb := (Q * Q * Q)%type.
Definition q_of (p : rgb) : qrgb := let '(r, g, b) := p in (inject_Z r, inject_Z g, inject_Z b).
(** The average of [n] pixels whose component sums are [p]. *)
Definition q_average (n : Z) (p : rgb) : qrgb :=
  let '(r, g, b) := p in (inject_Z r / inject_Z n, inject_Z g / inject_Z n, inject_Z b / inject_Z n).

(** Components are in 0 .. 255. *)
Definition q_luma (cs : color_space) (p : qrgb) : Q :=
  let '(r, g, b) := p in kr cs * r + kg cs * g + kb cs * b.
Definition exact_y (cs : color_space) (p : qrgb) : Q :=
  y_black cs + y_span cs * (q_luma cs p / 255).
Definition exact_cb (cs : color_space) (p : qrgb) : Q :=
  let '(_, _, b) := p in 128 + c_span cs * ((b - q_luma cs p) / 255 / (2 * (1 - kb cs))).
Definition exact_cr (cs : color_space) (p : qrgb) : Q :=
  let '(r, _, _) := p in 128 + c_span cs * ((r - q_luma cs p) / 255 / (2 * (1 - kr cs))).

(** The inverse transform. *)
Definition exact_rgb (cs : color_space) (y cb cr : Q) : qrgb :=
  let l := 255 * ((y - y_black cs) / y_span cs) in
  let r := l + 255 * ((cr - 128) / c_span cs) * (2 * (1 - kr cs)) in
  let b := l + 255 * ((cb - 128) / c_span cs) * (2 * (1 - kb cs)) in
  (r, (l - kr cs * r - kb cs * b) / kg cs, b).

Definition q_clamp (x : Q) : Q := Qmax 0 (Qmin 255 x).

(** The integer [n] is within [e] of [x]. *)
Definition near (e : Q) (n : Z) (x : Q) : Prop := Qabs (inject_Z n - x) <= e.
