(** How names of the C header correspond to the Rust names, and what a C program stores in
    an image format structure. *)
From Coq Require Import ZArith List Bool String Ascii.
Import ListNotations.
From Verif Require Import Base Fmt Spec ApiSpec Lib Header.
Open Scope Z_scope.
Open Scope string_scope.

Definition is_lower (c : ascii) : bool := (Nat.leb 97 (nat_of_ascii c) && Nat.leb (nat_of_ascii c) 122)%bool.
Definition is_upper (c : ascii) : bool := (Nat.leb 65 (nat_of_ascii c) && Nat.leb (nat_of_ascii c) 90)%bool.
Definition upper1 (c : ascii) : ascii :=
  if is_lower c then ascii_of_nat (nat_of_ascii c - 32) else c.

(** "bt-601-fr" becomes "BT601FR". *)
Fixpoint upper (s : string) : string :=
  match s with
  | EmptyString => EmptyString
  | String c s' => if Ascii.eqb c "-" then upper s' else String (upper1 c) (upper s')
  end.
(** "InvalidValue" becomes "_INVALID_VALUE". *)
Fixpoint snake (s : string) : string :=
  match s with
  | EmptyString => EmptyString
  | String c s' => (if is_upper c then "_" else "") ++ String (upper1 c) (snake s')
  end.

(** The enumerators of the header meant by the Rust values. *)
Definition c_pixel_format (pf : pixel_format) : string := "DCP_PIXEL_FORMAT_" ++ upper (pf_display pf).
Definition c_color_space (cs : color_space) : string := "DCP_COLOR_SPACE_" ++ upper (cs_display cs).
Definition c_error (e : error_kind) : string := "DCP_ERROR_KIND" ++ snake (error_debug e).
Definition c_result_name (r : c_result) : string := "DCP_RESULT" ++ snake (result_name r).

(** [bytes] is a structure in which field [n] has the value [v n], whatever is in its padding:
    each field lies inside of it and has the bytes of its value in the order of the target. *)
Definition stored (T : target) (fields : list (string * abi_type)) (v : string -> Z) (bytes : list Z) : Prop :=
  forall n off sz, In (n, (off, sz)) (field_layout T fields 0) ->
  off + sz <= Z.of_nat (List.length bytes) /\
  (let b := firstn (Z.to_nat sz) (skipn (Z.to_nat off) bytes) in
   (if big T then rev b else b) = to_bytes (Z.to_nat sz) (v n)).

(** The designated initialiser [{ .pixel_format = a, .color_space = b, .num_planes = n }]. *)
Definition format_init (a b n : Z) (field : string) : Z :=
  if (field =? "pixel_format")%string then a
  else if (field =? "color_space")%string then b else n.

(** The C name of a type is the Rust name with prefix Dcp. *)
Fixpoint c_type (t : abi_type) : abi_type :=
  match t with
  | Named n => Named ("Dcp" ++ n)
  | Ptr c t' => Ptr c (c_type t')
  | t => t
  end.
Definition c_prototype (p : prototype) : prototype :=
  Prototype (p_name p) (c_type (p_result p)) (map (fun q => (fst q, c_type (snd q))) (p_params p)).

(** The destination formats in all rows of a source format. *)
Definition listed (src dst : pixel_format) : Prop :=
  exists l, In (c_pixel_format src, l) doc_conversions /\ In (c_pixel_format dst) l.

(** The sizes in bytes of the planes of a row of the table; all planes in one buffer when
    there is one plane only. *)
Definition table_sizes (r : doc_row) (n w h : Z) : list Z :=
  let l := map (fun q => fst q * w * h / snd q) (d_sizes r) in
  if (n =? 1)%Z then [fold_right Z.add 0 l] else l.
