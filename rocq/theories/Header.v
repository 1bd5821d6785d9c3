(** Model of the C header include/dcv_color_primitives.h and of the Rust declarations it
    has to agree with: enumerations, the image format structure, the functions, and the
    tables of its documentation. *)
From Coq Require Import ZArith List Bool String Ascii.
Import ListNotations.
From Verif Require Import Base Fmt Lib.
Open Scope Z_scope.
Open Scope string_scope.

(** ** Enumerations of the header *)

(** The enumerators of a C enumeration, in order; with [Some n] when the enumerator is
    defined to be equal to an earlier one (used in include/dcv_color_primitives.h:258-342). *)
Definition c_enum : Type := list (string * option string).

Fixpoint lookup {A} (n : string) (l : list (string * A)) : option A :=
  match l with
  | [] => None
  | (n', v) :: l' => if (n =? n')%string then Some v else lookup n l'
  end.

(** Values of the enumerators: 0 or one more than the previous one, unless given
    (the rule of the C language for the declarations in
    include/dcv_color_primitives.h:258-342). *)
Fixpoint enum_values (e : c_enum) (next : Z) (seen : list (string * Z)) : list (string * Z) :=
  match e with
  | [] => []
  | (n, init) :: e' =>
      let v := match init with
               | None => next
               | Some n' => match lookup n' seen with Some v => v | None => -1 end
               end in
      (n, v) :: enum_values e' (v + 1) (seen ++ [(n, v)])
  end.
Definition enumerators (e : c_enum) : list (string * Z) := enum_values e 0 [].
Definition enumerator (e : c_enum) (n : string) : option Z := lookup n (enumerators e).

(** include/dcv_color_primitives.h:258-261 *)
Definition DcpResult : c_enum := [("DCP_RESULT_OK", None); ("DCP_RESULT_ERR", None)].

(** include/dcv_color_primitives.h:272-276 *)
Definition DcpErrorKind : c_enum :=
  [("DCP_ERROR_KIND_INVALID_VALUE", None); ("DCP_ERROR_KIND_INVALID_OPERATION", None);
   ("DCP_ERROR_KIND_NOT_ENOUGH_DATA", None)].

(** include/dcv_color_primitives.h:301-311 *)
Definition DcpPixelFormat : c_enum :=
  [("DCP_PIXEL_FORMAT_ARGB", None); ("DCP_PIXEL_FORMAT_BGRA", None); ("DCP_PIXEL_FORMAT_BGR", None);
   ("DCP_PIXEL_FORMAT_RGBA", None); ("DCP_PIXEL_FORMAT_RGB", None); ("DCP_PIXEL_FORMAT_I444", None);
   ("DCP_PIXEL_FORMAT_I422", None); ("DCP_PIXEL_FORMAT_I420", None); ("DCP_PIXEL_FORMAT_NV12", None)].

(** include/dcv_color_primitives.h:335-342 *)
Definition DcpColorSpace : c_enum :=
  [("DCP_COLOR_SPACE_RGB", None); ("DCP_COLOR_SPACE_BT601", None); ("DCP_COLOR_SPACE_BT709", None);
   ("DCP_COLOR_SPACE_BT601FR", None); ("DCP_COLOR_SPACE_BT709FR", None);
   ("DCP_COLOR_SPACE_LRGB", Some "DCP_COLOR_SPACE_RGB")].

(** include/dcv_color_primitives.h:399 *)
Definition DCP_STRIDE_AUTO : Z := 0.

(** ** The Rust enumerations behind them *)

(** lib.rs:1001-1005 (repr(C), declaration order) *)
Definition result_u32 (r : c_result) : Z := match r with C_Ok => 0 | C_Err => 1 end.
(** lib.rs:291-301 (repr(C), declaration order) *)
Definition error_u32 (e : error_kind) : Z :=
  match e with InvalidValue => 0 | InvalidOperation => 1 | NotEnoughData => 2 end.

(** pixel_format.rs:80-95 [Display for PixelFormat] *)
Definition pf_display (pf : pixel_format) : string :=
  match pf with
  | Argb => "argb" | Bgra => "bgra" | Bgr => "bgr" | Rgba => "rgba" | Rgb => "rgb"
  | I444 => "i444" | I422 => "i422" | I420 => "i420" | Nv12 => "nv12"
  end.
(** color_space.rs:44-56 [Display for ColorSpace] *)
Definition cs_display (cs : color_space) : string :=
  match cs with
  | CsRgb => "rgb" | Bt601 => "bt-601" | Bt709 => "bt-709"
  | Bt601FR => "bt-601-fr" | Bt709FR => "bt-709-fr"
  end.
(** lib.rs:290 [derive(Debug)] *)
Definition error_debug (e : error_kind) : string :=
  match e with
  | InvalidValue => "InvalidValue" | InvalidOperation => "InvalidOperation"
  | NotEnoughData => "NotEnoughData"
  end.
(** lib.rs:1001-1005: the names of the variants *)
Definition result_name (r : c_result) : string := match r with C_Ok => "Ok" | C_Err => "Err" end.

(** ** Types and functions *)

(** The types used in the declarations. [Ptr true t] is [const t *] in C and [*const t] in
    Rust, [Ptr false t] is [t *] and [*mut t]. *)
Inductive abi_type :=
| Void | Char | U8 | U32 | Usize | Named (name : string) | Ptr (const : bool) (t : abi_type).

Record prototype := Prototype { p_name : string; p_result : abi_type; p_params : list (string * abi_type) }.

(** include/dcv_color_primitives.h:419, 437, 546-551, 704-712. ([size_t] is [Usize],
    [uint8_t] is [U8], [uint32_t] is [U32].) *)
Definition header_functions : list prototype :=
  [ Prototype "dcp_describe_acceleration" (Ptr false Char) [];
    Prototype "dcp_unref_string" Void [("string", Ptr false Char)];
    Prototype "dcp_get_buffers_size" (Named "DcpResult")
      [("width", U32); ("height", U32); ("format", Ptr true (Named "DcpImageFormat"));
       ("strides", Ptr true Usize); ("buffers_size", Ptr false Usize);
       ("error", Ptr false (Named "DcpErrorKind"))];
    Prototype "dcp_convert_image" (Named "DcpResult")
      [("width", U32); ("height", U32);
       ("src_format", Ptr true (Named "DcpImageFormat")); ("src_strides", Ptr true Usize);
       ("src_buffers", Ptr true (Ptr true U8));
       ("dst_format", Ptr true (Named "DcpImageFormat")); ("dst_strides", Ptr true Usize);
       ("dst_buffers", Ptr true (Ptr false U8));
       ("error", Ptr false (Named "DcpErrorKind"))] ].

(** lib.rs:1015-1016, 1026-1027, 1033-1041, 1075-1086 *)
Definition rust_functions : list prototype :=
  [ Prototype "dcp_describe_acceleration" (Ptr false Char) [];
    Prototype "dcp_unref_string" Void [("string", Ptr false Char)];
    Prototype "dcp_get_buffers_size" (Named "Result")
      [("width", U32); ("height", U32); ("format", Ptr true (Named "ImageFormat"));
       ("strides", Ptr true Usize); ("buffers_size", Ptr false Usize);
       ("error", Ptr false (Named "ErrorKind"))];
    Prototype "dcp_convert_image" (Named "Result")
      [("width", U32); ("height", U32);
       ("src_format", Ptr true (Named "ImageFormat")); ("src_strides", Ptr true Usize);
       ("src_buffers", Ptr true (Ptr true U8));
       ("dst_format", Ptr true (Named "ImageFormat")); ("dst_strides", Ptr true Usize);
       ("dst_buffers", Ptr true (Ptr false U8));
       ("error", Ptr false (Named "ErrorKind"))] ].

(** ** The image format structure *)

(** Size of a field; enumerations ([Named]) have four bytes, in C as in [repr(C)] Rust enumerations
    (true of the C compilers for the architectures supported by the crate, without -fshort-enums).
    Fields of other types do not occur in lib.rs:366-373. *)
Definition field_size (T : target) (t : abi_type) : Z :=
  match t with
  | Void => 0 | Char => 1 | U8 => 1 | U32 => 4 | Named _ => 4
  | Usize | Ptr _ _ => Z.log2 (usz T) / 8
  end.

(** Offset and size of the fields of a structure: every field at the next multiple
    of its size (the rule of C ABIs and of [repr(C)], lib.rs:365). *)
Fixpoint field_layout (T : target) (fields : list (string * abi_type)) (off : Z) : list (string * (Z * Z)) :=
  match fields with
  | [] => []
  | (n, t) :: fields' =>
      let sz := field_size T t in
      let off := (off + sz - 1) / sz * sz in
      (n, (off, sz)) :: field_layout T fields' (off + sz)
  end.

(** include/dcv_color_primitives.h:389-393 *)
Definition DcpImageFormat : list (string * abi_type) :=
  [("pixel_format", Named "DcpPixelFormat"); ("color_space", Named "DcpColorSpace"); ("num_planes", U32)].
(** lib.rs:366-373 *)
Definition ImageFormat_fields : list (string * abi_type) :=
  [("pixel_format", Named "PixelFormat"); ("color_space", Named "ColorSpace"); ("num_planes", U32)].

(** A field read from the bytes of a structure in the byte order of the target
    (for lib.rs:1047-1056, 1097-1102). *)
Definition field_value (T : target) (fields : list (string * abi_type)) (bytes : list Z) (n : string) : option Z :=
  match lookup n (field_layout T fields 0) with
  | None => None
  | Some (off, sz) =>
      let b := firstn (Z.to_nat sz) (skipn (Z.to_nat off) bytes) in
      Some (of_bytes (if big T then rev b else b))
  end.

(** The [ImageFormat] that the C API reads behind a pointer (lib.rs:1047-1056, 1097-1102). *)
Definition read_format (T : target) (bytes : list Z) : option image_format :=
  match field_value T ImageFormat_fields bytes "pixel_format",
        field_value T ImageFormat_fields bytes "color_space",
        field_value T ImageFormat_fields bytes "num_planes" with
  | Some pf, Some cs, Some n => Some (ImageFormat pf cs n)
  | _, _, _ => None
  end.

(** ** Tables of the documentation *)

(** include/dcv_color_primitives.h:359-369: colour spaces of each pixel format *)
Definition doc_colors : list (string * list string) :=
  let rgb := ["DCP_COLOR_SPACE_RGB"] in
  let ycc := ["DCP_COLOR_SPACE_BT601"; "DCP_COLOR_SPACE_BT601FR"; "DCP_COLOR_SPACE_BT709"; "DCP_COLOR_SPACE_BT709FR"] in
  [("DCP_PIXEL_FORMAT_ARGB", rgb); ("DCP_PIXEL_FORMAT_BGRA", rgb); ("DCP_PIXEL_FORMAT_BGR", rgb);
   ("DCP_PIXEL_FORMAT_RGBA", rgb); ("DCP_PIXEL_FORMAT_RGB", rgb);
   ("DCP_PIXEL_FORMAT_I444", ycc); ("DCP_PIXEL_FORMAT_I422", ycc);
   ("DCP_PIXEL_FORMAT_I420", ycc); ("DCP_PIXEL_FORMAT_NV12", ycc)].

(** A row of the second table: multiples required of width and height (1: none), possible
    numbers of planes, samples of each plane per pixel of the image, as numerator and
    denominator. *)
Record doc_row := DocRow { d_w : Z; d_h : Z; d_planes : list Z; d_sizes : list (Z * Z) }.

(** include/dcv_color_primitives.h:374-384 *)
Definition doc_formats : list (string * doc_row) :=
  [ ("DCP_PIXEL_FORMAT_ARGB", DocRow 1 1 [1] [(4, 1)]);
    ("DCP_PIXEL_FORMAT_BGRA", DocRow 1 1 [1] [(4, 1)]);
    ("DCP_PIXEL_FORMAT_BGR",  DocRow 1 1 [1] [(3, 1)]);
    ("DCP_PIXEL_FORMAT_RGBA", DocRow 1 1 [1] [(4, 1)]);
    ("DCP_PIXEL_FORMAT_RGB",  DocRow 1 1 [1] [(3, 1)]);
    ("DCP_PIXEL_FORMAT_I444", DocRow 1 1 [3] [(1, 1); (1, 1); (1, 1)]);
    ("DCP_PIXEL_FORMAT_I422", DocRow 2 1 [1; 3] [(1, 1); (1, 2); (1, 2)]);
    ("DCP_PIXEL_FORMAT_I420", DocRow 2 2 [3] [(1, 1); (1, 4); (1, 4)]);
    ("DCP_PIXEL_FORMAT_NV12", DocRow 2 2 [1; 2] [(1, 1); (1, 2)]) ].

(** include/dcv_color_primitives.h:589-605 *)
Definition doc_conversions : list (string * list string) :=
  [ ("DCP_PIXEL_FORMAT_ARGB", ["DCP_PIXEL_FORMAT_I420"]);
    ("DCP_PIXEL_FORMAT_ARGB", ["DCP_PIXEL_FORMAT_I444"]);
    ("DCP_PIXEL_FORMAT_ARGB", ["DCP_PIXEL_FORMAT_NV12"]);
    ("DCP_PIXEL_FORMAT_BGRA", ["DCP_PIXEL_FORMAT_I420"]);
    ("DCP_PIXEL_FORMAT_BGRA", ["DCP_PIXEL_FORMAT_I444"]);
    ("DCP_PIXEL_FORMAT_BGRA", ["DCP_PIXEL_FORMAT_NV12"]);
    ("DCP_PIXEL_FORMAT_BGRA", ["DCP_PIXEL_FORMAT_RGB"]);
    ("DCP_PIXEL_FORMAT_BGR",  ["DCP_PIXEL_FORMAT_I420"]);
    ("DCP_PIXEL_FORMAT_BGR",  ["DCP_PIXEL_FORMAT_I444"]);
    ("DCP_PIXEL_FORMAT_BGR",  ["DCP_PIXEL_FORMAT_NV12"]);
    ("DCP_PIXEL_FORMAT_BGR",  ["DCP_PIXEL_FORMAT_RGB"]);
    ("DCP_PIXEL_FORMAT_I420", ["DCP_PIXEL_FORMAT_BGRA"; "DCP_PIXEL_FORMAT_RGBA"]);
    ("DCP_PIXEL_FORMAT_I444", ["DCP_PIXEL_FORMAT_BGRA"; "DCP_PIXEL_FORMAT_RGBA"]);
    ("DCP_PIXEL_FORMAT_NV12", ["DCP_PIXEL_FORMAT_BGRA"; "DCP_PIXEL_FORMAT_RGB"; "DCP_PIXEL_FORMAT_RGBA"]);
    ("DCP_PIXEL_FORMAT_RGB",  ["DCP_PIXEL_FORMAT_BGRA"]) ].
