(** Properties of get_buffers_size: exactly what it answers, and exactly when buffers of these
    sizes are accepted by convert_image. *)
From Coq Require Import ZArith List Bool Lia.
Import ListNotations.
From Verif Require Import Base Fmt CpuInfo Wrappers Lib Sets Spec SetSpec ApiSpec Api SizeProps SizeSpec SizeExact.
Open Scope Z_scope.

(** C10, C13, exactly: for valid requests with enough room, get_buffers_size answers
    [advertised_sizes] of [SizeSpec]; if one of these does not fit the machine, it panics in a
    checked build, and answers the sizes modulo the machine's integers otherwise. *)
Theorem C13_exact_sizes : forall T w h im out m, is_target T ->
  0 <= w < 2 ^ 32 -> 0 <= h < 2 ^ 32 -> strides_below (usz T) im ->
  valid_num_planes (i_pf im) (i_planes im) -> valid_size (i_pf im) w h ->
  i_planes im <= Z.of_nat (length out) ->
  match i_strides im with None => True | Some l => i_planes im <= Z.of_nat (length l) end ->
  get_buffers_size w h (format_of im) (i_strides im) out T m =
  if checked T && existsb (fun s => usz T <=? s) (advertised_sizes im w h) then Fault Overflow
  else Ok (Success, map (fun s => s mod usz T) (advertised_sizes im w h) ++ skipn (Z.to_nat (i_planes im)) out) m.
Proof. exact size_exact. Qed.
Print Assumptions C13_exact_sizes.
Example C13_exact_example :
  advertised_sizes (Image Bgra CsRgb 1 (Some [2 ^ 40])) (2 ^ 31) 4 = [2 ^ 42 + 3 * 2 ^ 33] /\
  get_buffers_size (2 ^ 31) 4 (format_of (Image Bgra CsRgb 1 (Some [2 ^ 30]))) (Some [2 ^ 30]) [7; 9] T32_debug (Mem [] []) = Fault Overflow /\
  get_buffers_size (2 ^ 31) 3 (format_of (Image Bgra CsRgb 1 (Some [2 ^ 30]))) (Some [2 ^ 30]) [7; 9] T32_release (Mem [] []) =
    Ok (Success, [2 ^ 30; 9]) (Mem [] []) /\
  advertised_sizes (Image I420 Bt601 3 (Some [8; 0; 5])) 6 4 = [32; 6; 10].
Proof. vm_compute. auto. Qed.

(** C10: by how much the size of an image of one plane with a stride differs from the
    documented stride * rows: packed formats get (bytes per pixel - 1) * w * h bytes too many,
    NV12 gets the padding of the chroma rows too few. *)
Theorem C10_one_plane : forall im w h s, i_planes im = 1 -> valid_num_planes (i_pf im) 1 ->
  i_strides im = Some [s] -> s <> 0 ->
  exists d, documented_sizes im w h = [d] /\
  advertised_sizes im w h =
  [match i_pf im with
   | Nv12 => d - (s - w) * (h / 2)
   | pf => d + (bytes_per_pixel pf - 1) * w * h
   end].
Proof. exact one_plane_difference. Qed.
Print Assumptions C10_one_plane.
Example C10_one_plane_example :
  documented_sizes (Image Nv12 Bt601 1 (Some [8])) 4 4 = [48] /\ advertised_sizes (Image Nv12 Bt601 1 (Some [8])) 4 4 = [40] /\
  documented_sizes (Image Bgra CsRgb 1 (Some [16])) 2 2 = [32] /\ advertised_sizes (Image Bgra CsRgb 1 (Some [16])) 2 2 = [44].
Proof. vm_compute. auto. Qed.

(** C11, exactly: buffers of exactly the sizes answered by get_buffers_size (without overflow)
    are refused by convert_image if, and only if, one of the images is a one-plane NV12 image
    with padded rows. *)
Theorem C11_exactly_refused : forall set T w h src dst sb db, is_target64 T ->
  well_formed (usz T) w h src dst sb db -> 0 < w -> 0 < h ->
  valid_image src w h -> valid_image dst w h -> supported (i_pf src) (i_pf dst) = true ->
  rows_apart src w h -> rows_apart dst w h -> strides_given src -> strides_given dst ->
  sizes_of T src w h (map (fun b => Z.of_nat (length b)) sb) -> Z.of_nat (length sb) = i_planes src ->
  sizes_of T dst w h (map (fun b => Z.of_nat (length b)) db) -> Z.of_nat (length db) = i_planes dst ->
  (convert (converters set) T w h src dst sb db = Ok (Err NotEnoughData) (Mem sb db) <->
   padded_nv12 src w \/ padded_nv12 dst w).
Proof. exact sizes_accepted_exactly. Qed.
Print Assumptions C11_exactly_refused.
Example C11_exactly_example :
  let nv12 s := Image Nv12 Bt601 1 (Some [s]) in
  sizes_of T64_debug (nv12 4) 4 4 [24] /\ ~ padded_nv12 (nv12 4) 4 /\
  sizes_of T64_debug (nv12 8) 4 4 [40] /\ padded_nv12 (nv12 8) 4 /\ strides_given (nv12 8) /\
  rows_apart (nv12 8) 4 4.
Proof.
  cbv zeta. split; [exists [0], (Mem [] []), (Mem [] []); vm_compute; reflexivity|].
  split; [intros (_ & _ & X); apply X; reflexivity|].
  split; [exists [0], (Mem [] []), (Mem [] []); vm_compute; reflexivity|].
  split; [repeat split; vm_compute; congruence|]. split; [reflexivity|].
  repeat constructor; vm_compute; congruence.
Qed.
