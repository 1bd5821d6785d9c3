(** Vocabulary of the round trip YCbCr - RGB - YCbCr, independent of the model of the code but
    for the calls of which [generations] is made. *)
From Coq Require Import ZArith QArith.
From Verif Require Import Base Fmt Wrappers CpuInfo Lib Sets Spec ApiSpec Api PixelSpec Itu.
Open Scope Z_scope.

(** RGB bytes can represent the colour: no component is clamped when it is decoded. *)
Definition representable (cs : color_space) (p : Z * Z * Z) : Prop :=
  let '(y, cb, cr) := p in let '(r, g, b) := rgb64 cs y cb cr in
  0 <= r < 256 * 64 /\ 0 <= g < 256 * 64 /\ 0 <= b < 256 * 64.

(** The exact RGB of the colour keeps a distance of 4 from black and from white. *)
Definition well_inside (cs : color_space) (p : Z * Z * Z) : Prop :=
  let '(y, cb, cr) := p in let '(r, g, b) := exact_rgb cs (inject_Z y) (inject_Z cb) (inject_Z cr) in
  (4 <= r <= 251 /\ 4 <= g <= 251 /\ 4 <= b <= 251)%Q.

(** Pixels (x, y) and (x', y') of an image of format [pf] have their chroma in common. *)
Definition shares_chroma (pf : pixel_format) (x y x' y' : Z) : Prop :=
  match pf with
  | I444 => x' = x /\ y' = y
  | _ => x' / 2 = x / 2 /\ y' / 2 = y / 2
  end.

(** What decoding and encoding again makes of a representable colour. *)
Definition regenerated (cs : color_space) (p p' : Z * Z * Z) : Prop :=
  let '(y, cb, cr) := p in let '(y', cb', cr') := p' in
  match cs with
  | Bt601 | Bt709 => y' = y /\ cb' = cb /\ cr' = cr
  | Bt601FR => y' = y /\ cb' = cb + 1 /\ cr' = cr + 1
  | Bt709FR => y <= y' <= y + 1 /\ cb' = cb + 1 /\ cr <= cr' <= cr + 1
  | CsRgb => False
  end.

(** An image decoded to RGB and encoded again, [n] times, in the same format and colour space:
    every call on its own instruction set, target, RGB format and layout. [im] and [b] are the
    first image and its buffers, [im'] and [b'] the last ones. *)
Inductive generations (w h : Z) (im : image) (b : list (list Z)) : nat -> image -> list (list Z) -> Prop :=
| Gen_0 : generations w h im b O im b
| Gen_S n im1 b1 set T mid mb m1 set' T' im2 b2 m2 :
    generations w h im b n im1 b1 ->
    successful_call (converters set) T w h im1 mid b1 mb m1 ->
    successful_call (converters set') T' w h mid im2 (dsts m1) b2 m2 ->
    is_rgb (i_pf mid) = true -> i_pf im2 = i_pf im1 -> i_cs im2 = i_cs im1 ->
    generations w h im b (S n) im2 (dsts m2).
