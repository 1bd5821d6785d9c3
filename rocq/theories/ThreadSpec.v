(** Vocabulary of the properties of threads: what a thread does when it is alone, and which
    memory it may use. *)
From Coq Require Import ZArith List Bool.
Import ListNotations.
From Verif Require Import Base Fmt Wrappers CpuInfo Spec ApiSpec Lib Sets Api BandSpec Thread.
Open Scope Z_scope.

Definition inside (a : Z) (r : region) : Prop := r_base r <= a < r_base r + r_len r.
Definition apart (r r' : region) : Prop := forall a, inside a r -> inside a r' -> False.

(** The calls of one thread, one after the other and with nothing else running: each call finds in
    its slices what is in memory and leaves there what [convert] says; nothing outside of the
    destination slices changes. [ans] are the answers, [e] the memory at the end. There is no
    such run if a call faults. *)
Inductive alone (set : instruction_set) (T : target) : memory -> list request -> list outcome -> memory -> Prop :=
| alone_end : forall hp e, (forall a, e a = hp a) -> alone set T hp [] [] e
| alone_call : forall hp q qs o m hp1 ans e,
    convert (converters set) T (q_w q) (q_h q) (q_src q) (q_dst q)
      (map (bytes_of hp) (q_from q)) (map (bytes_of hp) (q_to q)) = Ok o m ->
    map (bytes_of hp1) (q_to q) = dsts m ->
    (forall a, (forall r, In r (q_to q) -> ~ inside a r) -> hp1 a = hp a) ->
    alone set T hp1 qs ans e ->
    alone set T hp (q :: qs) (o :: ans) e.

(** Rust's borrowing rules, within one call: a [&mut] slice shares no byte with another slice. *)
Definition borrowed (q : request) : Prop :=
  (forall i j r r', nth_error (q_to q) i = Some r -> nth_error (q_to q) j = Some r' -> i <> j -> apart r r') /\
  (forall r r', In r (q_to q) -> In r' (q_from q) -> apart r r').

(** And between threads: what one of them writes, no other one uses. Everything may be read by
    all. *)
Definition used_by (qs : list request) (r : region) : Prop :=
  exists q, In q qs /\ (In r (q_from q) \/ In r (q_to q)).
Definition written_by (qs : list request) (r : region) : Prop :=
  exists q, In q qs /\ In r (q_to q).
Definition independent (calls : list (list request)) : Prop :=
  forall t u qt qu r r', nth_error calls t = Some qt -> nth_error calls u = Some qu -> t <> u ->
    written_by qt r -> used_by qu r' -> apart r r'.

Definition idle (th : thread) : Prop := todo th = [] /\ current th = None.

(** Threads as Rust lets a program have them, none of whose calls faults when it is alone. *)
Definition threads_ok (set : instruction_set) (T : target) (hp : memory) (calls : list (list request)) : Prop :=
  (forall qs q, In qs calls -> In q qs -> borrowed q) /\
  independent calls /\
  (forall qs, In qs calls -> exists ans e, alone set T hp qs ans e).

(** ** One picture, converted by several threads *)

(** Bytes [a] to [b] (excluded) of a slice; less where the slice ends earlier. *)
Definition part (r : region) (a b : Z) : region :=
  Region (r_base r + Z.min a (r_len r)) (Z.min b (r_len r) - Z.min a (r_len r)).

(** The slices of rows [y0] to [y1] (excluded) of an image, and of the rows from [y0] on. *)
Definition numbered_regions (rs : list region) : list (nat * region) := combine (seq 0 (length rs)) rs.
Definition band_of (im : image) (w y0 y1 : Z) (rs : list region) : list region :=
  map (fun '(p, r) => part r (row_start im w y0 p) (row_start im w y1 p)) (numbered_regions rs).
Definition rest_of (im : image) (w y0 : Z) (rs : list region) : list region :=
  map (fun '(p, r) => part r (row_start im w y0 p) (r_len r)) (numbered_regions rs).

(** The rows from [y] on, cut at [cuts], one thread for each band. *)
Fixpoint band_threads (src dst : image) (w h : Z) (from to : list region) (y : Z) (cuts : list Z) : list (list request) :=
  match cuts with
  | [] => [[Request w (h - y) src dst (rest_of src w y from) (rest_of dst w y to)]]
  | y' :: cuts' =>
      [Request w (y' - y) src dst (band_of src w y y' from) (band_of dst w y y' to)]
      :: band_threads src dst w h from to y' cuts'
  end.

Fixpoint cuts_ok (src dst : image) (h y : Z) (cuts : list Z) : Prop :=
  match cuts with
  | [] => True
  | y' :: cuts' => y < y' < h /\ cut_ok src dst y' /\ cuts_ok src dst h y' cuts'
  end.
