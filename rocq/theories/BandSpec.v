(** Cutting an image into horizontal bands, as a caller does to share a conversion between
    threads. Independent of the model of the code. *)
From Coq Require Import ZArith List Bool.
Import ListNotations.
From Verif Require Import Fmt Spec ApiSpec.
Open Scope Z_scope.

(** How many rows of plane [p] the first [y] rows of the image have. *)
Definition plane_rows (pf : pixel_format) (p : nat) (y : Z) : Z :=
  match pf, p with I420, S _ | Nv12, S _ => y / 2 | _, _ => y end.

(** Where row [y] of the image starts in buffer [p]. *)
Definition row_start (im : image) (w y : Z) (p : nat) : Z :=
  plane_rows (i_pf im) p y * g_stride (plane_of im w 0 p).

(** Each plane has a buffer of its own: all images but one-plane NV12. *)
Definition own_buffers (im : image) : Prop := i_pf im = Nv12 -> i_planes im <> 1.

Definition numbered (bufs : list (list Z)) : list (nat * list Z) := combine (seq 0 (length bufs)) bufs.

(** The bytes of rows [y0] to [y1] (excluded), and those from row [y0] on. *)
Definition band (im : image) (w y0 y1 : Z) (bufs : list (list Z)) : list (list Z) :=
  map (fun '(p, b) => firstn (Z.to_nat (row_start im w y1 p - row_start im w y0 p))
                             (skipn (Z.to_nat (row_start im w y0 p)) b)) (numbered bufs).
Definition rest (im : image) (w y0 : Z) (bufs : list (list Z)) : list (list Z) :=
  map (fun '(p, b) => skipn (Z.to_nat (row_start im w y0 p)) b) (numbered bufs).

(** Where an image may be cut: at even rows, or anywhere if no chroma sample belongs to two
    rows. *)
Definition cut_ok (src dst : image) (y : Z) : Prop :=
  is_rgb (i_pf src) = true /\ is_rgb (i_pf dst) = true \/ y mod 2 = 0 \/ i_pf src = I444 \/ i_pf dst = I444.

(** The rows from [y] on are converted in bands; the results are given in order.
    [conv n s d r]: converting [n] rows from buffers [s] to buffers [d] gives buffers [r]. *)
Inductive in_bands (conv : Z -> list (list Z) -> list (list Z) -> list (list Z) -> Prop)
    (src dst : image) (w h : Z) (sb db : list (list Z)) : Z -> list (list (list Z)) -> Prop :=
| last_band : forall y r, conv (h - y) (rest src w y sb) (rest dst w y db) r ->
    in_bands conv src dst w h sb db y [r]
| next_band : forall y y' r rs, y < y' < h -> cut_ok src dst y' ->
    conv (y' - y) (band src w y y' sb) (band dst w y y' db) r ->
    in_bands conv src dst w h sb db y' rs ->
    in_bands conv src dst w h sb db y (r :: rs).
