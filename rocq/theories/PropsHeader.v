(** The C header agrees with the library. Each theorem is followed by its assumptions and by a
    concrete case. *)
From Coq Require Import ZArith List Bool String Lia.
Import ListNotations.
From Verif Require Import Base Fmt Dispatch Spec ApiSpec CpuInfo Lib Sets Api Header HeaderSpec HeaderFacts.
Open Scope Z_scope.
Open Scope string_scope.

(** C50: the enumerators of DcpPixelFormat are the pixel formats, by name and by value; the code
    accepts exactly their values, and no two formats have the same one. *)
Theorem C50_pixel_formats :
  (forall n v, (exists pf, n = c_pixel_format pf /\ v = pf_u32 pf) <-> In (n, v) (enumerators DcpPixelFormat)) /\
  (forall pf pf', pf_u32 pf = pf_u32 pf' -> pf = pf') /\
  (forall v, 0 <= v < 2 ^ 32 ->
     (is_pixel_format_valid v = true <-> exists n, In (n, v) (enumerators DcpPixelFormat))).
Proof. exact (conj pf_table (conj pf_codes_differ pf_code)). Qed.
Print Assumptions C50_pixel_formats.
Example C50_nv12 : In ("DCP_PIXEL_FORMAT_NV12", pf_u32 Nv12) (enumerators DcpPixelFormat).
Proof. vm_compute. tauto. Qed.

(** C50: likewise for DcpColorSpace, in which DCP_COLOR_SPACE_LRGB is another name of RGB. *)
Theorem C50_color_spaces :
  (forall n v, (exists cs, n = c_color_space cs /\ v = cs_u32 cs) \/ n = "DCP_COLOR_SPACE_LRGB" /\ v = cs_u32 CsRgb <->
     In (n, v) (enumerators DcpColorSpace)) /\
  (forall cs cs', cs_u32 cs = cs_u32 cs' -> cs = cs') /\
  (forall v, 0 <= v < 2 ^ 32 ->
     (is_color_space_valid v = true <-> exists n, In (n, v) (enumerators DcpColorSpace))).
Proof. exact (conj cs_table (conj cs_codes_differ cs_code)). Qed.
Print Assumptions C50_color_spaces.
Example C50_bt709fr : In ("DCP_COLOR_SPACE_BT709FR", cs_u32 Bt709FR) (enumerators DcpColorSpace).
Proof. vm_compute. tauto. Qed.

(** C50: the results and errors a C program sees have the names of the Rust ones. *)
Theorem C50_results :
  (forall n v, (exists r, n = c_result_name r /\ v = result_u32 r) <-> In (n, v) (enumerators DcpResult)) /\
  (forall n v, (exists e, n = c_error e /\ v = error_u32 e) <-> In (n, v) (enumerators DcpErrorKind)) /\
  (forall r r', result_u32 r = result_u32 r' -> r = r') /\ (forall e e', error_u32 e = error_u32 e' -> e = e').
Proof. exact (conj result_table (conj error_table (conj result_codes_differ error_codes_differ))). Qed.
Print Assumptions C50_results.
Example C50_not_enough_data : In ("DCP_ERROR_KIND_NOT_ENOUGH_DATA", error_u32 NotEnoughData) (enumerators DcpErrorKind).
Proof. vm_compute. tauto. Qed.

(** C50: the functions declared by the header are those defined by the library, with the same
    parameters in the same order. *)
Theorem C50_prototypes : map c_prototype rust_functions = header_functions.
Proof. exact prototypes_agree. Qed.
Print Assumptions C50_prototypes.
Example C50_convert_params :
  nth_error (map (fun p => List.length (p_params p)) header_functions) 3 = Some 9%nat.
Proof. reflexivity. Qed.

(** C50: a C program that fills in an image format by names of the header calls the conversion
    between the formats of these names, on every target, of either byte order. *)
Theorem C50_call : forall impl T w h src dst sb db error a b a' b' sbytes dbytes m,
  0 <= i_planes src < 2 ^ 32 -> 0 <= i_planes dst < 2 ^ 32 ->
  enumerator DcpPixelFormat (c_pixel_format (i_pf src)) = Some a ->
  enumerator DcpColorSpace (c_color_space (i_cs src)) = Some b ->
  enumerator DcpPixelFormat (c_pixel_format (i_pf dst)) = Some a' ->
  enumerator DcpColorSpace (c_color_space (i_cs dst)) = Some b' ->
  stored T DcpImageFormat (format_init a b (i_planes src)) sbytes ->
  stored T DcpImageFormat (format_init a' b' (i_planes dst)) dbytes ->
  dcp_convert_image impl w h (read_format T sbytes) (i_strides src) sb (read_format T dbytes) (i_strides dst) db error T m =
  dcp_convert_image impl w h (Some (format_of src)) (i_strides src) sb (Some (format_of dst)) (i_strides dst) db error T m.
Proof. exact header_call. Qed.
Print Assumptions C50_call.
(** A big-endian program that stores an NV12, BT.709, two planes format. *)
Example C50_call_example :
  stored (Target (2 ^ 64) true true) DcpImageFormat (format_init 8 2 2) [0; 0; 0; 8; 0; 0; 0; 2; 0; 0; 0; 2] /\
  read_format (Target (2 ^ 64) true true) [0; 0; 0; 8; 0; 0; 0; 2; 0; 0; 0; 2] = Some (format_of (Image Nv12 Bt709 2 None)).
Proof.
  split; [|reflexivity]. intros n off sz H. vm_compute in H.
  repeat (destruct H as [H|H]; [injection H as <- <- <-; split; [vm_compute; congruence|reflexivity]|]). destruct H.
Qed.

(** C50: the list of conversions of the header is what the library does. *)
Theorem C50_conversions : forall impl T w h src dst ss sb ds db m,
  0 <= i_planes src < 2 ^ 32 -> 0 <= i_planes dst < 2 ^ 32 -> valid_image src w h -> valid_image dst w h ->
  (~ listed (i_pf src) (i_pf dst) ->
   convert_image impl w h (format_of src) ss sb (format_of dst) ds db T m = Ok (Err InvalidOperation) m) /\
  (listed (i_pf src) (i_pf dst) ->
   forall m', convert_image impl w h (format_of src) ss sb (format_of dst) ds db T m <> Ok (Err InvalidOperation) m').
Proof. exact doc_operation. Qed.
Print Assumptions C50_conversions.
Example C50_conversions_example : listed Nv12 Rgb /\ ~ listed I420 Rgb.
Proof.
  split; [exists ["DCP_PIXEL_FORMAT_BGRA"; "DCP_PIXEL_FORMAT_RGB"; "DCP_PIXEL_FORMAT_RGBA"]; vm_compute; tauto|].
  rewrite doc_listed. discriminate.
Qed.

(** C50: the table of colour spaces of the header is the one that is checked. *)
Theorem C50_colors : forall pf cs,
  (exists l, In (c_pixel_format pf, l) doc_colors /\ In (c_color_space cs) l) <-> valid_colors pf cs.
Proof. exact doc_colors_valid. Qed.
Print Assumptions C50_colors.
Example C50_colors_example : valid_colors I420 Bt601FR /\ ~ valid_colors I420 CsRgb.
Proof. unfold valid_colors. vm_compute. intuition congruence. Qed.

(** C50: images that follow the second table are accepted, and the sizes of their planes are
    those of the table. Missing: I422 with one plane, which the table lists. *)
Theorem C50_table_partial : forall T w h pf cs r n out m,
  is_target T -> 0 <= w < 2 ^ 32 -> 0 <= h < 2 ^ 32 ->
  In (c_pixel_format pf, r) doc_formats -> In n (d_planes r) -> w mod d_w r = 0 -> h mod d_h r = 0 ->
  pf <> I422 \/ n <> 1 -> n <= Z.of_nat (List.length out) ->
  Forall (fun s => s < usz T) (table_sizes r n w h) ->
  get_buffers_size w h (format_of (Image pf cs n None)) None out T m =
  Ok (Success, (table_sizes r n w h ++ skipn (Z.to_nat n) out)%list) m.
Proof. exact table_call. Qed.
Print Assumptions C50_table_partial.
Example C50_table_example :
  In (c_pixel_format I420, DocRow 2 2 [3] [(1, 1); (1, 4); (1, 4)]) doc_formats /\
  table_sizes (DocRow 2 2 [3] [(1, 1); (1, 4); (1, 4)]) 3 640 480 = [307200; 76800; 76800].
Proof. split; [vm_compute; tauto|reflexivity]. Qed.

(** C50: images that do not follow the second table are refused. *)
Theorem C50_table_only : forall T w h pf cs r n st out m, is_target T ->
  0 <= w < 2 ^ 32 -> 0 <= h < 2 ^ 32 -> 0 <= n < 2 ^ 32 -> In (c_pixel_format pf, r) doc_formats ->
  ~ (In n (d_planes r) /\ w mod d_w r = 0 /\ h mod d_h r = 0) ->
  get_buffers_size w h (format_of (Image pf cs n st)) st out T m = Ok (Err InvalidValue, out) m.
Proof. exact table_refused. Qed.
Print Assumptions C50_table_only.
Example C50_table_only_example : ~ (In 4 (d_planes (DocRow 1 1 [3] [(1, 1); (1, 1); (1, 1)])) /\ 7 mod 1 = 0 /\ 5 mod 1 = 0).
Proof. intros (H & _). vm_compute in H. intuition discriminate. Qed.

(** C50, refuted: the table says that an I422 image may have one plane; it is refused. *)
Theorem C50_table_refuted : exists r, In (c_pixel_format I422, r) doc_formats /\ In 1 (d_planes r) /\
  forall T w h cs st out m, is_target T -> 0 <= w < 2 ^ 32 -> 0 <= h < 2 ^ 32 ->
  get_buffers_size w h (format_of (Image I422 cs 1 st)) st out T m = Ok (Err InvalidValue, out) m.
Proof. exact i422_one_plane. Qed.
Print Assumptions C50_table_refuted.

(** C50: strides that are all DCP_STRIDE_AUTO, at least one for each plane, are as good as none. *)
Theorem C50_stride_auto : forall w h f k out T m, 1 <= f_planes f < 2 ^ 32 -> f_planes f <= Z.of_nat k ->
  get_buffers_size w h f (Some (repeat DCP_STRIDE_AUTO k)) out T m = get_buffers_size w h f None out T m.
Proof. exact auto_strides. Qed.
Print Assumptions C50_stride_auto.
Example C50_stride_auto_example :
  get_buffers_size 4 2 (format_of (Image Nv12 Bt601 2 None)) (Some [DCP_STRIDE_AUTO; DCP_STRIDE_AUTO]) [0; 0] T64_debug (Mem [] [])
  = Ok (Success, [8; 4]) (Mem [] []).
Proof. vm_compute. reflexivity. Qed.
