(** A picture in rectangles, one call of the C function for each: the pointers lead to the first
    pixel of the rectangle, and the strides are those of the whole picture. *)
From Coq Require Import ZArith List Bool.
Import ListNotations.
From Verif Require Import Base Fmt Wrappers CpuInfo Spec SetSpec ApiSpec BandSpec Thread ThreadSpec CThreadSpec.
Open Scope Z_scope.

Record rect := Rect { x0 : Z; y0 : Z; wide : Z; high : Z }.
Definition in_rect (r : rect) (x y : Z) : Prop := x0 r <= x < x0 r + wide r /\ y0 r <= y < y0 r + high r.

(** How many bytes of a row of plane [p] the first [x] columns of the image have. *)
Definition plane_cols (pf : pixel_format) (p : nat) (x : Z) : Z :=
  match pf, p with
  | (Argb | Bgra | Rgba | Bgr | Rgb), _ => bytes_per_pixel pf * x
  | (I422 | I420), S _ => x / 2
  | _, _ => x
  end.

(** Where the rectangle starts in the buffer of plane [p]. *)
Definition rect_start (im : image) (w : Z) (r : rect) (p : nat) : Z :=
  row_start im w (y0 r) p + plane_cols (i_pf im) p (x0 r).

Definition rect_image (im : image) (w h : Z) : image :=
  Image (i_pf im) (i_cs im) (i_planes im) (Some (map g_stride (image_planes im w h))).
Definition rect_regions (im : image) (w : Z) (r : rect) (rs : list region) : list region :=
  map (fun '(p, reg) => Region (r_base reg + rect_start im w r p) (r_len reg - rect_start im w r p)) (numbered_regions rs).
Definition rect_request (q : request) (r : rect) : request :=
  Request (wide r) (high r) (rect_image (q_src q) (q_w q) (q_h q)) (rect_image (q_dst q) (q_w q) (q_h q))
    (rect_regions (q_src q) (q_w q) r (q_from q)) (rect_regions (q_dst q) (q_w q) r (q_to q)).

(** A rectangle that can be converted on its own: it lies in the picture, does not cut a chroma
    sample of either image, and the bytes that the vector kernels read after a row of that width
    (BGR only) are there behind the whole picture. *)
Definition rect_ok (set : instruction_set) (hp : memory) (q : request) (r : rect) : Prop :=
  0 <= x0 r /\ 0 < wide r /\ x0 r + wide r <= q_w q /\ 0 <= y0 r /\ 0 < high r /\ y0 r + high r <= q_h q /\
  valid_size (i_pf (q_src q)) (wide r) (high r) /\ valid_size (i_pf (q_dst q)) (wide r) (high r) /\
  valid_size (i_pf (q_src q)) (x0 r) (y0 r) /\ valid_size (i_pf (q_dst q)) (x0 r) (y0 r) /\
  image_in (over_read set (i_pf (q_src q)) (i_pf (q_dst q)) (wide r)) (q_src q) (q_w q) (q_h q) (map (bytes_of hp) (q_from q)).

(** The columns of the rectangle are computed like those of the picture: by the vector or by the
    scalar code. Always so for the portable code. *)
Definition same_columns (set : instruction_set) (q : request) (r : rect) : Prop :=
  forall x, 0 <= x < wide r ->
  set_cols set (i_pf (q_src q)) (i_pf (q_dst q)) (q_w q) (x0 r + x) = set_cols set (i_pf (q_src q)) (i_pf (q_dst q)) (wide r) x.

(** No pixel is in two rectangles; every pixel is in one. *)
Definition rects_apart (rs : list rect) : Prop :=
  forall t u r r' x y, nth_error rs t = Some r -> nth_error rs u = Some r' -> t <> u -> in_rect r x y -> in_rect r' x y -> False.
Definition rects_cover (w h : Z) (rs : list rect) : Prop :=
  forall x y, 0 <= x < w -> 0 <= y < h -> exists r, In r rs /\ in_rect r x y.

(** Rectangles that start at whole groups of pixels, and end at one or at the right edge. Groups of
    all kernels fit into 32 columns, into 24 for sources of three bytes. *)
Definition aligned (q : request) (r : rect) : Prop :=
  let k := if bytes_per_pixel (i_pf (q_src q)) =? 3 then 24 else 32 in
  x0 r mod k = 0 /\ (wide r mod k = 0 \/ x0 r + wide r = q_w q).
