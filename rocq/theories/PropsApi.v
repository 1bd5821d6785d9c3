(** Properties of dispatch, validation, get_buffers_size, cpu detection, initialisation
    and of the C functions. *)
From Coq Require Import String ZArith List Bool Lia.
Import ListNotations.
From Verif Require Import Base Fmt CpuInfo Wrappers Lib Sets Spec SetSpec ApiSpec Api Once OnceFacts SizeFacts SizeProps CApiFacts CpuSpec CpuFacts.
Open Scope Z_scope.
Open Scope list_scope.

(** ** Dispatch *)

(** C06: for every instruction set (any module [impl] of conversion functions), a valid
    request is answered by InvalidOperation exactly when the pair of formats is not in
    the README table. *)
Theorem C06_supported_conversions : forall impl T w h src dst ss sb ds db m,
  0 <= i_planes src < 2 ^ 32 -> 0 <= i_planes dst < 2 ^ 32 -> valid_image src w h -> valid_image dst w h ->
  (supported (i_pf src) (i_pf dst) = false <->
   forall impl, convert_image impl w h (format_of src) ss sb (format_of dst) ds db T m = Ok (Err InvalidOperation) m) /\
  (supported (i_pf src) (i_pf dst) = true ->
   forall m', convert_image impl w h (format_of src) ss sb (format_of dst) ds db T m <> Ok (Err InvalidOperation) m').
Proof. exact not_dispatched. Qed.
Print Assumptions C06_supported_conversions.

(** C07: the function called is the one registered for exactly the two formats and
    colour spaces of the request. *)
Theorem C07_dispatch_exact : forall impl T w h src dst ss sb ds db m,
  0 <= i_planes src < 2 ^ 32 -> 0 <= i_planes dst < 2 ^ 32 -> valid_image src w h -> valid_image dst w h ->
  supported (i_pf src) (i_pf dst) = true ->
  exists c, registered_for c = ((i_pf src, i_cs src), (i_pf dst, i_cs dst)) /\
    convert_image impl w h (format_of src) ss sb (format_of dst) ds db T m =
    (r <- impl c w h (i_planes src - 1) (strides_or_default ss) sb (i_planes dst - 1) (strides_or_default ds) db ;;
     ret (if (r : bool) then Success else Err NotEnoughData)) T m.
Proof. exact dispatched. Qed.
Print Assumptions C07_dispatch_exact.

(** C07: two valid pairs of images with the same slot are equal. *)
Theorem C07_no_aliasing : forall s d s' d',
  valid_colors (fst s) (snd s) -> valid_colors (fst d) (snd d) ->
  valid_colors (fst s') (snd s') -> valid_colors (fst d') (snd d') ->
  slot s d = slot s' d' -> s = s' /\ d = d'.
Proof. exact slot_inj. Qed.
Print Assumptions C07_no_aliasing.
Example C07_example : slot (Bgra, CsRgb) (Nv12, Bt709FR) <> slot (Bgra, CsRgb) (Nv12, Bt709).
Proof. vm_compute. discriminate. Qed.

(** ** Validation and buffer sizes *)

(** C08: a description is refused exactly when its plane count or dimensions are wrong.
    (For convert_image, see C05.) *)
Theorem C08_validation : forall T w h im out m, is_target T ->
  0 <= w < 2 ^ 32 -> 0 <= h < 2 ^ 32 -> 0 <= i_planes im < 2 ^ 32 ->
  (get_buffers_size w h (format_of im) (i_strides im) out T m = Ok (Err InvalidValue, out) m <->
   ~ (valid_num_planes (i_pf im) (i_planes im) /\ valid_size (i_pf im) w h)).
Proof. exact size_invalid. Qed.
Print Assumptions C08_validation.
Example C08_example :
  get_buffers_size 4 4 (format_of (Image Nv12 Bt601 65537 None)) None [0] T64_debug (Mem [] []) = Ok (Err InvalidValue, [0]) (Mem [] []).
Proof. vm_compute. reflexivity. Qed.

(** C09: sizes without strides. *)
Theorem C09_default_sizes : forall T w h pf cs n out m, is_target T ->
  0 <= w < 2 ^ 32 -> 0 <= h < 2 ^ 32 ->
  valid_num_planes pf n -> valid_size pf w h -> n <= Z.of_nat (length out) ->
  let im := Image pf cs n None in
  Forall (fun s => s < usz T) (documented_sizes im w h) ->
  get_buffers_size w h (format_of im) None out T m =
  Ok (Success, documented_sizes im w h ++ skipn (Z.to_nat n) out) m.
Proof. exact size_default. Qed.
Print Assumptions C09_default_sizes.

(** C09: the documented sizes in closed form, for 64-bit targets and dimensions below 2^31
    (nothing overflows). *)
Theorem C09_documented_sizes : forall T w h pf cs n out m, is_target64 T ->
  0 <= w < 2 ^ 31 -> 0 <= h < 2 ^ 31 ->
  valid_num_planes pf n -> valid_size pf w h -> n <= Z.of_nat (length out) ->
  get_buffers_size w h (format_of (Image pf cs n None)) None out T m =
  Ok (Success,
      match pf with
      | Argb | Bgra | Rgba => [4 * (w * h)]
      | Bgr | Rgb => [3 * (w * h)]
      | I444 => [w * h; w * h; w * h]
      | I422 => [w * h; w * h / 2; w * h / 2]
      | I420 => [w * h; w * h / 4; w * h / 4]
      | Nv12 => if n =? 1 then [3 * (w * h) / 2] else [w * h; w * h / 2]
      end ++ skipn (Z.to_nat n) out) m.
Proof. exact size_closed. Qed.
Print Assumptions C09_documented_sizes.
Example C09_example :
  get_buffers_size 640 480 (format_of (Image I420 Bt601 3 None)) None [1; 2; 3; 4] T32_debug (Mem [] []) =
  Ok (Success, [307200; 76800; 76800; 4]) (Mem [] []).
Proof. vm_compute. reflexivity. Qed.

(** C10, the part that holds: sizes with strides for images of more than one plane.
    Missing: one plane (packed formats, one-plane NV12), see the next theorem. *)
Theorem C10_sizes_with_strides_partial : forall T w h im out m, is_target T ->
  0 <= w < 2 ^ 32 -> 0 <= h < 2 ^ 32 -> strides_below (usz T) im ->
  valid_num_planes (i_pf im) (i_planes im) -> valid_size (i_pf im) w h ->
  i_strides im = None \/ 1 < i_planes im ->
  i_planes im <= Z.of_nat (length out) ->
  match i_strides im with None => True | Some l => i_planes im <= Z.of_nat (length l) end ->
  Forall (fun s => s < usz T) (documented_sizes im w h) ->
  get_buffers_size w h (format_of im) (i_strides im) out T m =
  Ok (Success, documented_sizes im w h ++ skipn (Z.to_nat (i_planes im)) out) m.
Proof. exact size_documented. Qed.
Print Assumptions C10_sizes_with_strides_partial.
Example C10_example :
  get_buffers_size 6 4 (format_of (Image I420 Bt601 3 None)) (Some [8; 0; 5]) [1; 2; 3] T64_debug (Mem [] []) =
  Ok (Success, [32; 6; 10]) (Mem [] []) /\ documented_sizes (Image I420 Bt601 3 (Some [8; 0; 5])) 6 4 = [32; 6; 10].
Proof. vm_compute. auto. Qed.

(** C10 does not hold for one plane: a BGRA image of 2x2 pixels with stride 16 takes 32
    bytes, get_buffers_size says 44; a one-plane NV12 image of 4x4 pixels with stride 8
    takes 48 bytes, get_buffers_size says 40. *)
Theorem C10_refuted :
  (exists w h im, valid_image im w h /\ documented_sizes im w h = [32] /\
     get_buffers_size w h (format_of im) (i_strides im) [0] T64_debug (Mem [] []) = Ok (Success, [44]) (Mem [] [])) /\
  (exists w h im, valid_image im w h /\ documented_sizes im w h = [48] /\
     get_buffers_size w h (format_of im) (i_strides im) [0] T64_debug (Mem [] []) = Ok (Success, [40]) (Mem [] [])).
Proof.
  split; [exists 2, 2, (Image Bgra CsRgb 1 (Some [16]))|exists 4, 4, (Image Nv12 Bt601 1 (Some [8]))];
    (split; [repeat split; cbn; auto; discriminate|split; vm_compute; reflexivity]).
Qed.
Print Assumptions C10_refuted.

(** C11, the part that holds: buffers of the sizes computed (without overflow) by
    get_buffers_size are accepted. Missing: one-plane NV12 with row padding, and
    strides for more planes than there are. *)
Theorem C11_advertised_sizes_accepted_partial : forall set T w h src dst sb db ssizes dsizes, is_target T ->
  well_formed (usz T) w h src dst sb db -> 0 < w -> 0 < h ->
  valid_image src w h -> valid_image dst w h -> supported (i_pf src) (i_pf dst) = true ->
  rows_apart src w h -> rows_apart dst w h -> plain_strides src w -> plain_strides dst w ->
  sizes_of T src w h ssizes -> sizes_of T dst w h dsizes ->
  holds src sb ssizes -> holds dst db dsizes ->
  (exists m', convert (converters set) T w h src dst sb db = Ok Success m') \/
  (convert (converters set) T w h src dst sb db = Fault OOB_read /\ ~ room set src dst w h sb).
Proof. exact advertised_accepted. Qed.
Print Assumptions C11_advertised_sizes_accepted_partial.
Example C11_example :
  sizes_of T64_debug (Image I420 Bt709 3 (Some [3; 0; 2])) 2 2 [6; 1; 2] /\
  holds (Image I420 Bt709 3 (Some [3; 0; 2])) [[16; 235; 3; 100; 200; 6]; [90]; [240; 9]] [6; 1; 2] /\
  plain_strides (Image I420 Bt709 3 (Some [3; 0; 2])) 2.
Proof.
  split; [exists [0; 0; 0], (Mem [] []), (Mem [] []); vm_compute; reflexivity|]. split.
  - split; [cbn; lia|]. intros [|[|[|n]]] Hn; cbn in Hn |- *; lia.
  - split; [reflexivity|discriminate].
Qed.

(** C11 does not hold in full: a one-plane NV12 image of 4x4 pixels with stride 8, in a
    buffer of the advertised 40 bytes, is refused. *)
Theorem C11_refuted : forall set, exists w h src dst sb db,
  well_formed (2 ^ 64) w h src dst sb db /\ valid_image src w h /\ valid_image dst w h /\
  supported (i_pf src) (i_pf dst) = true /\ rows_apart src w h /\ rows_apart dst w h /\
  sizes_of T64_debug src w h (map (fun b => Z.of_nat (length b)) sb) /\
  sizes_of T64_debug dst w h (map (fun b => Z.of_nat (length b)) db) /\
  convert (converters set) T64_debug w h src dst sb db = Ok (Err NotEnoughData) (Mem sb db).
Proof.
  intros set. exists 4, 4, (Image Nv12 Bt601 1 (Some [8])), (Image Bgra CsRgb 1 None), [repeat 0 40], [repeat 0 64].
  unfold well_formed, strides_below, buffers_ok, valid_image, valid_colors, rows_apart, sizes_of.
  split. { repeat (first [ lia | reflexivity | discriminate | congruence | progress cbn | split | constructor | intros ]). }
  split; [repeat split; cbn; auto; discriminate|].
  split; [repeat split; cbn; auto; discriminate|].
  split; [reflexivity|]. split; [repeat constructor; vm_compute; discriminate|].
  split; [repeat constructor; vm_compute; discriminate|].
  split; [exists [0], (Mem [] []), (Mem [] []); vm_compute; reflexivity|].
  split; [exists [0], (Mem [] []), (Mem [] []); vm_compute; reflexivity|].
  destruct set; vm_compute; reflexivity.
Qed.
Print Assumptions C11_refuted.

(** C12: only the entries of the planes are written, and none on error. *)
Theorem C12_writes_only_its_entries : forall T w h im out m, is_target T ->
  0 <= w < 2 ^ 32 -> 0 <= h < 2 ^ 32 -> 0 <= i_planes im < 2 ^ 32 ->
  (forall e out' m', get_buffers_size w h (format_of im) (i_strides im) out T m = Ok (Err e, out') m' -> out' = out) /\
  (forall out' m', get_buffers_size w h (format_of im) (i_strides im) out T m = Ok (Success, out') m' ->
     i_planes im <= Z.of_nat (length out) /\ length out' = length out /\
     forall k, i_planes im <= Z.of_nat k -> nth k out' 0 = nth k out 0).
Proof. exact size_writes. Qed.
Print Assumptions C12_writes_only_its_entries.

(** C13, the part that holds: on 64-bit targets, without strides and with dimensions
    below 2^31, nothing overflows: sizes are the documented ones (C09), exactly. *)
Theorem C13_no_overflow_partial : forall T w h pf cs n out m, is_target64 T ->
  0 <= w < 2 ^ 31 -> 0 <= h < 2 ^ 31 ->
  valid_num_planes pf n -> valid_size pf w h -> n <= Z.of_nat (length out) ->
  get_buffers_size w h (format_of (Image pf cs n None)) None out T m =
  Ok (Success, documented_sizes (Image pf cs n None) w h ++ skipn (Z.to_nat n) out) m.
Proof. exact size_default_64. Qed.
Print Assumptions C13_no_overflow_partial.
Example C13_example :
  get_buffers_size (2 ^ 31 - 1) (2 ^ 31 - 1) (format_of (Image Bgra CsRgb 1 None)) None [0] T64_debug (Mem [] []) =
  Ok (Success, [4 * (2 ^ 31 - 1) * (2 ^ 31 - 1)]) (Mem [] []).
Proof. vm_compute. reflexivity. Qed.

(** C13 does not hold in full: for the largest dimensions 4 * w * h does not fit: panic in
    debug builds, a wrong size in release builds. *)
Theorem C13_refuted : exists w h im, 0 <= w < 2 ^ 32 /\ 0 <= h < 2 ^ 32 /\ valid_image im w h /\
  get_buffers_size w h (format_of im) (i_strides im) [0] T64_debug (Mem [] []) = Fault Overflow /\
  exists s, get_buffers_size w h (format_of im) (i_strides im) [0] T64_release (Mem [] []) = Ok (Success, [s]) (Mem [] []) /\
            documented_sizes im w h = [s + 2 ^ 64].
Proof.
  exists (2 ^ 31), (2 ^ 31 + 1), (Image Bgra CsRgb 1 None).
  split; [lia|]. split; [lia|]. split; [repeat split; cbn; auto|]. split; [vm_compute; reflexivity|].
  exists (2 ^ 33). split; vm_compute; reflexivity.
Qed.
Print Assumptions C13_refuted.

(** ** Processor detection *)

(** C28, the part that holds: the set chosen is one that the processor reports (on x86 by
    the SSE2 and AVX2 bits of cpuid, on aarch64 by the NEON feature, otherwise none), and no
    better one is reported, except that AMD processors never get AVX2. *)
Theorem C28_selected_only_if_reported_partial : forall c,
  reported c (snd (cpu_get c)) /\
  (snd (cpu_get c) = X86 -> forall s, reported c s -> s = X86) /\
  (snd (cpu_get c) = Sse2 -> reported c Avx2 -> fst (cpu_get c) = Amd) /\
  (snd (cpu_get c) = Avx2 -> fst (cpu_get c) <> Amd).
Proof. exact (fun c => conj (selected_reported c) (selected_best c)). Qed.
Print Assumptions C28_selected_only_if_reported_partial.

(** C28: the manufacturer is told from exactly the vendor texts of Intel and AMD. *)
Theorem C28_vendor_exact : forall cpuid, regs_u32 (cpuid 0) ->
  (fst (get_x86 cpuid) = Intel <-> eax (cpuid 0) <> 0 /\ vendor_text cpuid = text "GenuineIntel") /\
  (fst (get_x86 cpuid) = Amd <-> eax (cpuid 0) <> 0 /\
     (vendor_text cpuid = text "AuthenticAMD" \/ vendor_text cpuid = text "AMDisbetter!")).
Proof. exact vendor_exact. Qed.
Print Assumptions C28_vendor_exact.

(** A processor with the given highest basic leaf, answering the leaves above it like
    the highest one (as Intel processors do). *)
Definition old_cpuid (leaf : Z) : regs :=
  if leaf =? 0 then Regs 1 0x756e6547 0x6c65746e 0x49656e69 else Regs 0 (2 ^ 5) 0 (2 ^ 26).

(** C28 does not hold in full: leaf 7 is used without checking that it exists (highest
    leaf 1 here), and without checking that the operating system has enabled the AVX
    registers (bit 27, OSXSAVE, of ecx of leaf 1). *)
Theorem C28_refuted : exists cpuid, eax (cpuid 0) < 7 /\ Z.testbit (ecx (cpuid 1)) 27 = false /\
  get_x86 cpuid = (Intel, Avx2).
Proof. exists old_cpuid. split; [reflexivity|]. split; vm_compute; reflexivity. Qed.
Print Assumptions C28_refuted.

(** C28: describe_acceleration tells which set is in use: descriptions of different
    contexts differ. *)
Theorem C28_described : forall c c', describe_acceleration c = describe_acceleration c' -> c = c'.
Proof. exact described_inj. Qed.
Print Assumptions C28_described.

(** C28: the description has the two documented fields, with the words for the manufacturer and the
    set of the context. *)
Theorem C28_description : forall c, described_as (describe_acceleration c)
  [("cpu-manufacturer", vendor_word (fst c)); ("instruction-set", set_word (snd c))]%string.
Proof. exact description. Qed.
Print Assumptions C28_description.
Example C28_selected_example :
  snd (cpu_get (Cpu_x86 old_cpuid)) = Avx2 /\ snd (cpu_get (Cpu_aarch64 true)) = Neon /\
  snd (cpu_get (Cpu_aarch64 false)) = X86 /\ regs_u32 (old_cpuid 0) /\
  vendor_text old_cpuid = text "GenuineIntel".
Proof. repeat split; vm_compute; congruence. Qed.
Example C28_example : describe_acceleration (Amd, Sse2) = "{cpu-manufacturer:Amd,instruction-set:Sse2}"%string.
Proof. reflexivity. Qed.

(** ** Initialisation *)

(** C29: however threads are interleaved, at most one context is built; all contexts
    handed out are equal and built from the answer of cpu_info::get; a context in use
    is the published one; waiting threads can always move on. *)
Theorem C29_once_only : forall cpu_of w, reachable cpu_of w -> (built w <= 1)%nat.
Proof. exact once_only. Qed.
Print Assumptions C29_once_only.
Theorem C29_same_context : forall cpu_of w, reachable cpu_of w ->
  forall c c', In c (seen w) -> In c' (seen w) -> c = c' /\ built w = 1%nat /\ exists t, c = cpu_get (cpu_of t).
Proof. exact seen_one. Qed.
Print Assumptions C29_same_context.
Theorem C29_published : forall cpu_of w t c, reachable cpu_of w -> threads w t = Got c -> lock w = Set_ c.
Proof. exact got_published. Qed.
Print Assumptions C29_published.
Theorem C29_progress : forall cpu_of w t, reachable cpu_of w -> threads w t = Asking ->
  exists t' w', step cpu_of t' w w' /\ (threads w' t' = Building \/ exists c, threads w' t' = Got c).
Proof. exact progress. Qed.
Print Assumptions C29_progress.
Example C29_example : exists w, reachable (fun t => Cpu_aarch64 (Nat.eqb t 0)) w /\
  seen w = [(Unknown, Neon); (Unknown, Neon)] /\ built w = 1%nat.
Proof. exact (race (fun t => Cpu_aarch64 (Nat.eqb t 0))). Qed.

(** ** C functions *)

(** C30: null mandatory pointers. *)
Theorem C30_null_pointers : forall impl w h sf ss sp df ds dp error T m,
  sf = None \/ df = None \/ sp = None \/ dp = None ->
  dcp_convert_image impl w h sf ss sp df ds dp error T m = Ok (failed error InvalidValue) m.
Proof. exact c_null. Qed.
Print Assumptions C30_null_pointers.

(** C30: codes that are not values of the enums. *)
Theorem C30_unknown_enums : forall impl w h sf ss sp df ds dp error T m,
  format_u32 sf -> format_u32 df -> ~ (known_format sf /\ known_format df) ->
  dcp_convert_image impl w h (Some sf) ss (Some sp) (Some df) ds (Some dp) error T m = Ok (failed error InvalidValue) m.
Proof. exact c_unknown. Qed.
Print Assumptions C30_unknown_enums.

(** C30: plane counts. *)
Theorem C30_bad_planes : forall impl w h sf ss sp df ds dp error T m,
  format_u32 sf -> format_u32 df -> known_format sf -> known_format df ->
  ~ (planes_valid sf /\ planes_valid df) ->
  dcp_convert_image impl w h (Some sf) ss (Some sp) (Some df) ds (Some dp) error T m = Ok (failed error InvalidValue) m.
Proof. exact c_bad_planes. Qed.
Print Assumptions C30_bad_planes.

(** C30: null plane pointers. *)
Theorem C30_null_planes : forall impl w h sf ss sp df ds dp error T m,
  format_u32 sf -> format_u32 df -> known_format sf -> known_format df -> planes_valid sf -> planes_valid df ->
  f_planes sf <= zlen sp -> f_planes df <= zlen dp ->
  (exists k, Z.of_nat k < f_planes sf /\ nth k sp true = false) \/
  (exists k, Z.of_nat k < f_planes df /\ nth k dp true = false) ->
  dcp_convert_image impl w h (Some sf) ss (Some sp) (Some df) ds (Some dp) error T m = Ok (failed error InvalidValue) m.
Proof. exact c_null_plane. Qed.
Print Assumptions C30_null_planes.
Example C30_example :
  dcp_convert_image (converters X86) 2 2 (Some (ImageFormat 8 1 2)) None (Some [true; false])
    (Some (ImageFormat 1 0 1)) None (Some [true]) (Some None) T64_debug (Mem [[1; 2; 3; 4]; []] [[]]) =
  Ok (C_Err, Some (Some InvalidValue)) (Mem [[1; 2; 3; 4]; []] [[]]).
Proof. vm_compute. reflexivity. Qed.

(** C30: errors found before looking at the buffers are those of the Rust function. *)
Theorem C30_same_errors : forall impl T w h src dst sb db error,
  well_formed (usz T) w h src dst sb db -> enough_planes src sb -> enough_planes dst db ->
  (~ (valid_image src w h /\ valid_image dst w h) ->
   convert impl T w h src dst sb db = Ok (Err InvalidValue) (Mem sb db) /\
   c_convert impl T w h src dst sb db error = Ok (failed error InvalidValue) (Mem sb db)) /\
  (valid_image src w h -> valid_image dst w h -> supported (i_pf src) (i_pf dst) = false ->
   convert impl T w h src dst sb db = Ok (Err InvalidOperation) (Mem sb db) /\
   c_convert impl T w h src dst sb db error = Ok (failed error InvalidOperation) (Mem sb db)).
Proof. exact c_same_errors. Qed.
Print Assumptions C30_same_errors.

(** C30: with buffers of the documented sizes, the same bytes as the Rust function; the
    error location is left alone. (On SSE2 and AVX2 a BGR source needs the spare bytes of
    [room], see C38_room.) *)
Theorem C30_same_success : forall set T w h src dst sb db error, is_target T ->
  documented_call (usz T) w h src dst sb db -> room set src dst w h sb ->
  exists m', convert (converters set) T w h src dst sb db = Ok Success m' /\
             c_convert (converters set) T w h src dst sb db error = Ok (C_Ok, error) m'.
Proof. exact c_same_success. Qed.
Print Assumptions C30_same_success.

(** C30: dcp_get_buffers_size, bad arguments. *)
Theorem C30_sizes_bad : forall w h f ss bs error T m,
  match f, bs with
  | Some f, Some _ => 0 <= f_pf f < 2 ^ 32 /\ 0 <= f_planes f < 2 ^ 32 /\ ~ planes_valid f
  | _, _ => True
  end ->
  dcp_get_buffers_size w h f ss bs error T m = Ok (failed error InvalidValue, bs) m.
Proof. exact c_size_bad. Qed.
Print Assumptions C30_sizes_bad.

(** C30: otherwise it is the Rust function on the first num_planes entries. *)
Theorem C30_sizes_same : forall w h f ss bs error T m, 0 <= f_planes f < 2 ^ 32 -> planes_valid f ->
  match ss with Some l => f_planes f <= zlen l | None => True end -> f_planes f <= zlen bs ->
  let n := Z.to_nat (f_planes f) in
  dcp_get_buffers_size w h (Some f) ss (Some bs) error T m =
  match get_buffers_size w h f (option_map (firstn n) ss) (firstn n bs) T m with
  | Ok (Success, sizes) m' => Ok (C_Ok, error, Some (sizes ++ skipn n bs)) m'
  | Ok (Err e, sizes) m' => Ok (failed error e, Some (sizes ++ skipn n bs)) m'
  | Fault x => Fault x
  end.
Proof. exact c_size_same. Qed.
Print Assumptions C30_sizes_same.

(** ** 32-bit targets *)

(** C37, the part that holds: if the row sizes (and, for one-plane NV12, the luma size)
    fit in 32 bits, a call is refused on a 32-bit target exactly when it is on a 64-bit
    one. *)
Theorem C37_same_errors_partial : forall set T32 T64 w h src dst sb db e, is_target32 T32 -> is_target64 T64 ->
  well_formed (2 ^ 32) w h src dst sb db ->
  (forall im, im = src \/ im = dst -> bytes_per_pixel (i_pf im) * w < 2 ^ 32 /\
     (i_pf im = Nv12 -> i_planes im = 1 -> eff_stride (i_strides im) 0 w * h < 2 ^ 32)) ->
  (convert (converters set) T32 w h src dst sb db = Ok (Err e) (Mem sb db) <->
   convert (converters set) T64 w h src dst sb db = Ok (Err e) (Mem sb db)).
Proof. exact errors_32_64. Qed.
Print Assumptions C37_same_errors_partial.

(** C37 does not hold in full: 4 * width wraps to 0 for a width of 2^30. *)
Theorem C37_refuted : forall set, exists w h src dst sb db, well_formed (2 ^ 32) w h src dst sb db /\
  convert (converters set) T64_debug w h src dst sb db = Ok (Err NotEnoughData) (Mem sb db) /\
  convert (converters set) T32_debug w h src dst sb db = Fault Overflow /\
  (convert (converters set) T32_release w h src dst sb db = Fault OOB_write \/
   convert (converters set) T32_release w h src dst sb db = Fault OOB_read).
Proof.
  intros set. exists (2 ^ 30), 1, (Image I444 Bt601 3 (Some [1; 1; 1])), (Image Bgra CsRgb 1 None), [[0]; [0]; [0]], [[]].
  split.
  { unfold well_formed, strides_below, buffers_ok.
    repeat (first [ lia | reflexivity | discriminate | congruence | progress cbn | split | constructor | intros ]). }
  destruct set; (split; [lazy; reflexivity|]); (split; [lazy; reflexivity|]);
    [left|right|right|left]; lazy; reflexivity.
Qed.
Print Assumptions C37_refuted.
