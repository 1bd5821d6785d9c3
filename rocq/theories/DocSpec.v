(** The conversion formulas that the documentation of [convert_image] promises (lib.rs:809-871),
    with the decimal coefficients printed there. Independent of the model of the code. *)
From Coq Require Import ZArith QArith.
From Verif Require Import Fmt Spec Itu PixelSpec.
Open Scope Q_scope.

(** "Algorithm 1" (lib.rs:809-838): (y, cb, cr) of a colour. *)
Definition doc_y (cs : color_space) (p : qrgb) : Q :=
  let '(r, g, b) := p in
  match cs with
  | Bt601 => (257 # 1000) * r + (504 # 1000) * g + (98 # 1000) * b + 16
  | Bt709 => (213 # 1000) * r + (715 # 1000) * g + (72 # 1000) * b + 16
  | Bt601FR => (299 # 1000) * r + (587 # 1000) * g + (114 # 1000) * b
  | _ => (213 # 1000) * r + (715 # 1000) * g + (72 # 1000) * b
  end.
Definition doc_cb (cs : color_space) (p : qrgb) : Q :=
  let '(r, g, b) := p in
  match cs with
  | Bt601 => - (148 # 1000) * r - (291 # 1000) * g + (439 # 1000) * b + 128
  | Bt709 => - (117 # 1000) * r - (394 # 1000) * g + (511 # 1000) * b + 128
  | Bt601FR => - (169 # 1000) * r - (331 # 1000) * g + (500 # 1000) * b + 128
  | _ => - (115 # 1000) * r - (385 # 1000) * g + (500 # 1000) * b + 128
  end.
Definition doc_cr (cs : color_space) (p : qrgb) : Q :=
  let '(r, g, b) := p in
  match cs with
  | Bt601 => (439 # 1000) * r - (368 # 1000) * g - (71 # 1000) * b + 128
  | Bt709 => (511 # 1000) * r - (464 # 1000) * g - (47 # 1000) * b + 128
  | Bt601FR => (500 # 1000) * r - (419 # 1000) * g - (81 # 1000) * b + 128
  | _ => (500 # 1000) * r - (454 # 1000) * g - (46 # 1000) * b + 128
  end.

(** "Algorithm 2" (lib.rs:840-871). *)
Definition doc_rgb (cs : color_space) (y cb cr : Q) : qrgb :=
  match cs with
  | Bt601 =>
      ((1164 # 1000) * (y - 16) + (1596 # 1000) * (cr - 128),
       (1164 # 1000) * (y - 16) - (813 # 1000) * (cr - 128) - (392 # 1000) * (cb - 128),
       (1164 # 1000) * (y - 16) + (2017 # 1000) * (cb - 128))
  | Bt709 =>
      ((1164 # 1000) * (y - 16) + (1793 # 1000) * (cr - 128),
       (1164 # 1000) * (y - 16) - (534 # 1000) * (cr - 128) - (213 # 1000) * (cb - 128),
       (1164 # 1000) * (y - 16) + (2115 # 1000) * (cb - 128))
  | Bt601FR =>
      (y + (1402 # 1000) * (cr - 128),
       y - (714 # 1000) * (cr - 128) - (344 # 1000) * (cb - 128),
       y + (1772 # 1000) * (cb - 128))
  | _ =>
      (y + (1575 # 1000) * (cr - 128),
       y - (468 # 1000) * (cr - 128) - (187 # 1000) * (cb - 128),
       y + (1856 # 1000) * (cb - 128))
  end.

(** Distance to these formulas: the rounding to an integer, and the rounding of the printed
    coefficients to three decimals. *)
Definition doc_rgb_error (cs : color_space) : Q := if limited cs then 1 else 25 # 10.
