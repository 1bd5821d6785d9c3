(** A reference implementation of [convert_image] on byte lists: one short executable
    function, independent of the model of the code. *)
From Coq Require Import ZArith List Bool.
Import ListNotations.
From Verif Require Import Fmt Spec ApiSpec.
Open Scope Z_scope.

(** *** Checks *)
Definition colors_ok (pf : pixel_format) (cs : color_space) : bool :=
  match cs with CsRgb => is_rgb pf | _ => negb (is_rgb pf) end.
Definition planes_ok (pf : pixel_format) (n : Z) : bool :=
  match pf with
  | I444 | I422 | I420 => n =? 3
  | Nv12 => (n =? 1) || (n =? 2)
  | _ => n =? 1
  end.
Definition size_ok (pf : pixel_format) (w h : Z) : bool :=
  match pf with
  | I422 => w mod 2 =? 0
  | I420 | Nv12 => (w mod 2 =? 0) && (h mod 2 =? 0)
  | _ => true
  end.
Definition image_ok (im : image) (w h : Z) : bool :=
  colors_ok (i_pf im) (i_cs im) && planes_ok (i_pf im) (i_planes im) && size_ok (i_pf im) w h.

Definition enough (im : image) (bufs : list (list Z)) : bool :=
  (i_planes im <=? Z.of_nat (length bufs)) &&
  match i_strides im with None => true | Some l => i_planes im <=? Z.of_nat (length l) end.

(** The check of the code: one stride, and one row for each of the other rows (for two packed
    formats: one byte for each pixel of the other rows). *)
Definition plane_ok (len stride rows row : Z) : bool := stride + row * (rows - 1) <=? len.
Definition buffers_large (packed : bool) (im : image) (w h : Z) (bufs : list (list Z)) : bool :=
  match i_pf im, i_planes im =? 1 with
  | Nv12, true =>
      let s := eff_stride (i_strides im) 0 w in let len := buf_len bufs 0 in
      (s * h <=? len) && plane_ok (s * h) s h w && plane_ok (len - s * h) s (h / 2) w
  | _, _ => forallb (fun g => plane_ok (buf_len bufs (g_buf g)) (g_stride g) (g_rows g)
                                (if packed then w else g_row g)) (image_planes im w h)
  end.

(** *** Conversion *)

(** The plane, row and column of position [a] of buffer [n]; [p] is the number of the first
    plane in the list. *)
Fixpoint locate (gs : list geom) (p n : nat) (a : Z) : option (nat * Z * Z) :=
  match gs with
  | [] => None
  | g :: gs' =>
      let d := a - g_base g in
      if Nat.eqb n (g_buf g) && (0 <=? d) && (d / g_stride g <? g_rows g) && (d mod g_stride g <? g_row g)
      then Some (p, d / g_stride g, d mod g_stride g)
      else locate gs' (S p) n a
  end.

(** Replaces every byte of the image, keeps the others. [n] and [a] count buffers and bytes. *)
Fixpoint new_bytes (f : Z -> Z -> Z) (a : Z) (b : list Z) : list Z :=
  match b with
  | [] => []
  | v :: b' => f a v :: new_bytes f (a + 1) b'
  end.
Fixpoint new_buffers (f : nat -> Z -> Z -> Z) (n : nat) (bufs : list (list Z)) : list (list Z) :=
  match bufs with
  | [] => []
  | b :: bufs' => new_bytes (f n) 0 b :: new_buffers f (S n) bufs'
  end.
Definition converted_buffers (A : columns) (src dst : image) (w h : Z) (sb db : list (list Z)) : list (list Z) :=
  new_buffers (fun n a v => match locate (image_planes dst w h) 0 n a with
                            | Some (p, y, j) => expected A src dst w h sb p y j
                            | None => v
                            end) 0 db.

Inductive answer := Done | Invalid_value | Invalid_operation | Not_enough_data.

(** The answer and the contents of the destination buffers afterwards. *)
Definition reference (A : columns) (w h : Z) (src dst : image) (sb db : list (list Z)) : answer * list (list Z) :=
  let packed := is_rgb (i_pf src) && is_rgb (i_pf dst) in
  if negb (image_ok src w h && image_ok dst w h) then (Invalid_value, db)
  else if negb (supported (i_pf src) (i_pf dst)) then (Invalid_operation, db)
  else if (w =? 0) || (h =? 0) then (Done, db)
  else if negb (enough src sb && enough dst db && buffers_large packed src w h sb && buffers_large packed dst w h db)
  then (Not_enough_data, db)
  else (Done, converted_buffers A src dst w h sb db).
