(** Model of src/lib.rs: dispatch table, get_buffers_size, convert_image,
    describe_acceleration, the global context and the C API. *)
From Coq Require Import ZArith List Bool String.
Import ListNotations.
From Verif Require Import Base Fmt Dispatch Common CpuInfo Scalar Wrappers.
Open Scope Z_scope.

(** lib.rs:292-301 [enum ErrorKind]. *)
Inductive error_kind := InvalidValue | InvalidOperation | NotEnoughData.

(** [Result<(), ErrorKind>] *)
Inductive outcome := Success | Err (e : error_kind).

(** lib.rs:366-373 [struct ImageFormat]. The two enums are kept as their u32 code,
    since C callers may pass any number; Rust callers only have the values
    built by [image_format_of]. *)
Record image_format := ImageFormat { f_pf : Z; f_cs : Z; f_planes : Z }.

(** A Rust [ImageFormat] value (lib.rs:366-373). *)
Definition image_format_of (pf : pixel_format) (cs : color_space) (n : Z) : image_format :=
  ImageFormat (pf_u32 pf) (cs_u32 cs) n.

(** The functions stored in the dispatch table, named by the identifiers the
    macros of lib.rs:378-432 paste together: [src_dst], [src_dst_cs], [src_cs_dst]. *)
Inductive conv :=
| Rgb_rgb (src dst : pixel_format)
| Rgb_yuv (src dst : pixel_format) (cs : color_space)
| Yuv_rgb (src : pixel_format) (cs : color_space) (dst : pixel_format).

(** The table index computed by the macros rgb_to_rgb!, rgb_to_yuv!, yuv_to_rgb!
    (lib.rs:378-432). *)
Definition conv_index (c : conv) : Z :=
  let img pf cs := get_image_index (pf_u32 pf) (cs_u32 cs) (get_pixel_format_mode (pf_u32 pf)) in
  match c with
  | Rgb_rgb s d => get_index (img s CsRgb) (img d CsRgb)
  | Rgb_yuv s d cs => get_index (img s CsRgb) (img d cs)
  | Yuv_rgb s cs d => get_index (img s cs) (img d CsRgb)
  end.

(** lib.rs:435-505 [set_dispatch_table!]: the entries, in order. *)
Definition dispatch_entries : list conv :=
  [ Rgb_rgb Bgr Rgb; Rgb_rgb Bgra Rgb; Rgb_rgb Rgb Bgra;
    Rgb_yuv Argb I420 Bt601; Rgb_yuv Argb I420 Bt601FR; Rgb_yuv Argb I420 Bt709; Rgb_yuv Argb I420 Bt709FR;
    Rgb_yuv Argb I444 Bt601; Rgb_yuv Argb I444 Bt601FR; Rgb_yuv Argb I444 Bt709; Rgb_yuv Argb I444 Bt709FR;
    Rgb_yuv Argb Nv12 Bt601; Rgb_yuv Argb Nv12 Bt601FR; Rgb_yuv Argb Nv12 Bt709; Rgb_yuv Argb Nv12 Bt709FR;
    Rgb_yuv Bgr I420 Bt601; Rgb_yuv Bgr I420 Bt601FR; Rgb_yuv Bgr I420 Bt709; Rgb_yuv Bgr I420 Bt709FR;
    Rgb_yuv Bgr I444 Bt601; Rgb_yuv Bgr I444 Bt601FR; Rgb_yuv Bgr I444 Bt709; Rgb_yuv Bgr I444 Bt709FR;
    Rgb_yuv Bgr Nv12 Bt601; Rgb_yuv Bgr Nv12 Bt601FR; Rgb_yuv Bgr Nv12 Bt709; Rgb_yuv Bgr Nv12 Bt709FR;
    Rgb_yuv Bgra I420 Bt601; Rgb_yuv Bgra I420 Bt601FR; Rgb_yuv Bgra I420 Bt709; Rgb_yuv Bgra I420 Bt709FR;
    Rgb_yuv Bgra I444 Bt601; Rgb_yuv Bgra I444 Bt601FR; Rgb_yuv Bgra I444 Bt709; Rgb_yuv Bgra I444 Bt709FR;
    Rgb_yuv Bgra Nv12 Bt601; Rgb_yuv Bgra Nv12 Bt601FR; Rgb_yuv Bgra Nv12 Bt709; Rgb_yuv Bgra Nv12 Bt709FR;
    Yuv_rgb I420 Bt601 Bgra; Yuv_rgb I420 Bt601 Rgba; Yuv_rgb I420 Bt601FR Bgra; Yuv_rgb I420 Bt601FR Rgba;
    Yuv_rgb I420 Bt709 Bgra; Yuv_rgb I420 Bt709 Rgba; Yuv_rgb I420 Bt709FR Bgra; Yuv_rgb I420 Bt709FR Rgba;
    Yuv_rgb I444 Bt601 Bgra; Yuv_rgb I444 Bt601 Rgba; Yuv_rgb I444 Bt601FR Bgra; Yuv_rgb I444 Bt601FR Rgba;
    Yuv_rgb I444 Bt709 Bgra; Yuv_rgb I444 Bt709 Rgba; Yuv_rgb I444 Bt709FR Bgra; Yuv_rgb I444 Bt709FR Rgba;
    Yuv_rgb Nv12 Bt601 Bgra; Yuv_rgb Nv12 Bt601 Rgb; Yuv_rgb Nv12 Bt601 Rgba;
    Yuv_rgb Nv12 Bt601FR Bgra; Yuv_rgb Nv12 Bt601FR Rgb; Yuv_rgb Nv12 Bt601FR Rgba;
    Yuv_rgb Nv12 Bt709 Bgra; Yuv_rgb Nv12 Bt709 Rgb; Yuv_rgb Nv12 Bt709 Rgba;
    Yuv_rgb Nv12 Bt709FR Bgra; Yuv_rgb Nv12 Bt709FR Rgb; Yuv_rgb Nv12 Bt709FR Rgba ].

(** lib.rs:435-505, 528-534: the table starts with [None] everywhere and each
    macro line overwrites one entry. The same macro is used for every
    instruction set, with a different module of functions. *)
Definition dispatch_table : list (option conv) :=
  fold_left (fun t c => upd t (Z.to_nat (conv_index c)) (Some c))
            dispatch_entries (repeat None (Z.to_nat TABLE_SIZE)).

(** dispatcher.rs:24-50: [Sampler::$src_pf]; the macro is only used with Argb, Bgra
    and Bgr (the others do not compile). *)
Definition sampler_of (pf : pixel_format) : sampler :=
  match pf with Argb => S_Argb | Bgra => S_Bgra | _ => S_Bgr end.

(** dispatcher.rs:24-83: [Colorimetry::$cs]; never used with Rgb. *)
Definition colorimetry_of (cs : color_space) : colorimetry :=
  match cs with
  | Bt601 => C601 | Bt709 => C709 | Bt601FR => C601FR | Bt709FR => C709FR | CsRgb => C601
  end.

(** The functions of module x86 the table points to (x86.rs:1362-1571): the
    macro instantiations of dispatcher.rs:22-83. Combinations that are not in
    the table do not exist. *)
Definition x86_converter (c : conv) : converter :=
  match c with
  | Rgb_rgb Bgr _ => x86_bgr_rgb
  | Rgb_rgb Bgra _ => x86_bgra_rgb
  | Rgb_rgb _ _ => x86_rgb_bgra
  | Rgb_yuv s I420 cs => x86_rgb_i420 (sampler_of s) (pf_depth s) (colorimetry_of cs)
  | Rgb_yuv s I444 cs => x86_rgb_i444 (sampler_of s) (pf_depth s) (colorimetry_of cs)
  | Rgb_yuv s _ cs => x86_rgb_nv12 (sampler_of s) (pf_depth s) (colorimetry_of cs)
  | Yuv_rgb I420 cs d => x86_i420_rgb (colorimetry_of cs) (pf_depth d) (pf_reversed d)
  | Yuv_rgb I444 cs d => x86_i444_rgb (colorimetry_of cs) (pf_depth d) (pf_reversed d)
  | Yuv_rgb _ cs d => x86_nv12_rgb (colorimetry_of cs) (pf_depth d) (pf_reversed d)
  end.

(** [strides.unwrap_or(&DEFAULT_STRIDES)] (lib.rs:742, 960, 963). *)
Definition strides_or_default (s : option (arr Z)) : arr Z :=
  match s with Some a => a | None => arr_of DEFAULT_STRIDES end.

(** lib.rs:724-749. [strides] is a true Rust slice here. Returns the result and
    the contents of [buffers_size]. *)
Definition get_buffers_size (width height : Z) (format : image_format)
           (strides : option (list Z)) (buffers_size : list Z) : M (outcome * list Z) :=
  let pf := f_pf format in
  let last_plane := u32 (f_planes format - 1) in
  ok <- is_compatible pf width height last_plane ;;
  if negb ok then ret (Err InvalidValue, buffers_size)
  else
    '(b, sizes) <- pf_get_buffers_size pf width height last_plane
                     (match strides with Some s => s | None => DEFAULT_STRIDES end)
                     buffers_size ;;
    if (b : bool) then ret (Success, sizes) else ret (Err NotEnoughData, sizes).

(** lib.rs:891-972. [impl] gives the functions the table entries point to (the
    module chosen by the context). *)
Definition convert_image (impl : conv -> converter) (width height : Z)
           (src_format : image_format) (src_strides : option (arr Z)) (src_buffers : arr slice)
           (dst_format : image_format) (dst_strides : option (arr Z)) (dst_buffers : arr slice)
  : M outcome :=
  let src_pf_mode := get_pixel_format_mode (f_pf src_format) in
  let src_cs_mode := get_color_space_mode (f_cs src_format) in
  let dst_pf_mode := get_pixel_format_mode (f_pf dst_format) in
  let dst_cs_mode := get_color_space_mode (f_cs dst_format) in
  if xorb src_pf_mode src_cs_mode || xorb dst_pf_mode dst_cs_mode then ret (Err InvalidValue)
  else
    let last_src_plane := u32 (f_planes src_format - 1) in
    src_ok <- is_compatible (f_pf src_format) width height last_src_plane ;;
    if negb src_ok then ret (Err InvalidValue)
    else
      let last_dst_plane := u32 (f_planes dst_format - 1) in
      dst_ok <- is_compatible (f_pf dst_format) width height last_dst_plane ;;
      if negb dst_ok then ret (Err InvalidValue)
      else
        let src_index := get_image_index (f_pf src_format) (f_cs src_format) src_pf_mode in
        let dst_index := get_image_index (f_pf dst_format) (f_cs dst_format) dst_pf_mode in
        let i := get_index src_index dst_index in
        if zlen dispatch_table <=? i then ret (Err InvalidOperation)
        else
          converter_ <- index dispatch_table i ;;
          match converter_ with
          | None => ret (Err InvalidOperation)
          | Some c =>
              r <- impl c width height last_src_plane (strides_or_default src_strides) src_buffers
                     last_dst_plane (strides_or_default dst_strides) dst_buffers ;;
              ret (if (r : bool) then Success else Err NotEnoughData)
          end.

(** ** Context (lib.rs:512-590) *)

(** The part of [Context] observable through the API: the pair returned by
    [cpu_info::get]; [converters] is [dispatch_table] with the module of [set]. *)
Definition context := (manufacturer * instruction_set)%type.

(** lib.rs:521-524 [Context::global]: [OnceLock::get_or_init]. The state is the
    content of the lock; [cpu_now] is what cpu_info::get would return if it were
    run at this moment. The atomicity of [get_or_init] is the contract of
    std::sync::OnceLock, assumed here. *)
Definition context_global (cpu_now : cpu) (lock : option context) : context * option context :=
  match lock with
  | Some c => (c, Some c)
  | None => let c := cpu_get cpu_now in (c, Some c)
  end.

(** [{:?}] of the two enums (derive(Debug), cpu_info.rs:23, 32). *)
Definition manufacturer_debug (m : manufacturer) : string :=
  match m with Unknown => "Unknown" | Intel => "Intel" | Amd => "Amd" end.
(** cpu_info.rs:32-41 *)
Definition set_debug (s : instruction_set) : string :=
  match s with X86 => "X86" | Sse2 => "Sse2" | Avx2 => "Avx2" | Neon => "Neon" end.

(** lib.rs:600-607 *)
Definition describe_acceleration (c : context) : string :=
  ("{cpu-manufacturer:" ++ manufacturer_debug (fst c) ++ ",instruction-set:"
   ++ set_debug (snd c) ++ "}")%string.

(** ** C API (lib.rs:984-1180) *)

(** lib.rs:1001-1005 [enum Result]. *)
Inductive c_result := C_Ok | C_Err.

(** lib.rs:1007-1013. [error] is [None] when the pointer is null, otherwise its
    current content; the second component is the new content. *)
Definition set_error (error : option (option error_kind)) (value : error_kind)
  : c_result * option (option error_kind) :=
  match error with
  | Some _ => (C_Err, Some (Some value))
  | None => (C_Err, None)
  end.

(** lib.rs:1033-1073. Null pointers are [None]. [strides] and [buffers_size] are the
    memory the caller really provides behind the pointers; reading or writing
    fewer entries than num_planes there is undefined behaviour. *)
Definition dcp_get_buffers_size (width height : Z) (format : option image_format)
           (strides : option (list Z)) (buffers_size : option (list Z))
           (error : option (option error_kind))
  : M (c_result * option (option error_kind) * option (list Z)) :=
  match format, buffers_size with
  | Some format, Some bs =>
      if negb (is_pixel_format_valid (f_pf format)) then
        ret (set_error error InvalidValue, buffers_size)
      else
        ok <- are_planes_compatible (f_pf format) (f_planes format) ;;
        if negb ok then ret (set_error error InvalidValue, buffers_size)
        else
          let n := f_planes format in
          if (match strides with Some s => zlen s <? n | None => false end) then raise OOB_read
          else if zlen bs <? n then raise OOB_write
          else
            let k := Z.to_nat n in
            '(o, sizes) <- get_buffers_size width height format
                             (match strides with Some s => Some (firstn k s) | None => None end)
                             (firstn k bs) ;;
            let out := Some (sizes ++ skipn k bs)%list in
            match o with
            | Success => ret (C_Ok, error, out)
            | Err e => ret (set_error error e, out)
            end
  | _, _ => ret (set_error error InvalidValue, buffers_size)
  end.

(** lib.rs:1117-1133, 1135-1151: the first min(num_planes, 4) plane pointers are
    read; a null one is rejected; the others become slices of length
    isize::MAX. [mk i] is the slice for pointer number [i]; entries the loop does
    not fill are uninitialised (absent). [None] means a null plane was found. *)
Fixpoint c_planes (mk : nat -> plane) (ptrs : list bool) (i n : nat) (l : list slice)
  : M (option (list slice)) :=
  match n with
  | O => ret (Some l)
  | S n' =>
      match nth_error ptrs i with
      | None => raise OOB_read
      | Some false => ret None
      | Some true => Ask (fun T => c_planes mk ptrs (S i) n' (l ++ [Slice (mk i) 0 (isize_max T)]))
      end
  end.

(** lib.rs:1075-1179. The plane pointer arrays are lists telling which pointers
    are non-null; pointer [i] points to buffer [Src i] / [Dst i] of the memory. *)
Definition dcp_convert_image (impl : conv -> converter) (width height : Z)
           (src_format : option image_format) (src_strides : option (list Z))
           (src_buffers : option (list bool))
           (dst_format : option image_format) (dst_strides : option (list Z))
           (dst_buffers : option (list bool))
           (error : option (option error_kind))
  : M (c_result * option (option error_kind)) :=
  match src_format, dst_format, src_buffers, dst_buffers with
  | Some sf, Some df, Some sp, Some dp =>
      if negb (is_pixel_format_valid (f_pf sf)) || negb (is_pixel_format_valid (f_pf df))
         || negb (is_color_space_valid (f_cs sf)) || negb (is_color_space_valid (f_cs df))
      then ret (set_error error InvalidValue)
      else
        bad <- orM (ok <- are_planes_compatible (f_pf sf) (f_planes sf) ;; ret (negb ok))
                   (ok <- are_planes_compatible (f_pf df) (f_planes df) ;; ret (negb ok)) ;;
        if (bad : bool) then ret (set_error error InvalidValue)
        else
          sl <- c_planes Src sp 0 (Z.to_nat (Z.min (f_planes sf) MAX_NUMBER_OF_PLANES)) [] ;;
          match sl with
          | None => ret (set_error error InvalidValue)
          | Some sl =>
              dl <- c_planes Dst dp 0 (Z.to_nat (Z.min (f_planes df) MAX_NUMBER_OF_PLANES)) [] ;;
              match dl with
              | None => ret (set_error error InvalidValue)
              | Some dl =>
                  o <- Ask (fun T => convert_image impl width height
                         sf (option_map (Arr (isize_max T)) src_strides) (Arr MAX_NUMBER_OF_PLANES sl)
                         df (option_map (Arr (isize_max T)) dst_strides) (Arr MAX_NUMBER_OF_PLANES dl)) ;;
                  match o with
                  | Success => ret (C_Ok, error)
                  | Err e => ret (set_error error e)
                  end
              end
          end
  | _, _, _, _ => ret (set_error error InvalidValue)
  end.
