(** Model of src/convert_image/common.rs. *)
From Coq Require Import ZArith List Bool.
Import ListNotations.
From Verif Require Import Base.
Open Scope Z_scope.

(** src/convert_image/common.rs:77-79 *)
Definition wg_index (x y w h : Z) : M Z :=
  a <- umul h y ;; b <- umul x w ;; uadd a b.

(** src/convert_image/common.rs:81-83. [x & !(p - 1)] where [p] is one of the
    literals 2, 4, 8, 16, 32: the low bits of [x] are cleared. *)
Definition lower_multiple_of_pot (x p : Z) : Z := x - Z.land x (p - 1).

(** src/convert_image/common.rs:85-90; [stride * height_minus_one] and
    [size - width] are plain usize operations. *)
Definition out_of_bounds (size width height_minus_one stride : Z) : M bool :=
  Ask (fun T =>
    if size <? width then ret true
    else if height_minus_one =? 0 then ret false
    else if usize_max T / height_minus_one <? stride then ret true
    else
      a <- umul stride height_minus_one ;;
      b <- usub size width ;;
      ret (b <? a)).

(** src/convert_image/common.rs:92-98 *)
Definition compute_stride (stride def : Z) : Z := if stride =? 0 then def else stride.

(** src/convert_image/common.rs:100-104 *)
Definition FIX16 : Z := 16.
(** src/convert_image/common.rs:101 *)
Definition FIX18 : Z := 18.
(** src/convert_image/common.rs:102 *)
Definition FIX16_HALF : Z := Z.shiftl 1 (FIX16 - 1).
(** src/convert_image/common.rs:103 *)
Definition FIX18_HALF : Z := Z.shiftl 1 (FIX16 + 1).
(** src/convert_image/common.rs:104 *)
Definition FIX6 : Z := 6.
(** src/convert_image/common.rs:106 *)
Definition SHORT_HALF : Z := 16384.

(** src/convert_image/common.rs:193-200 [enum Colorimetry]. *)
Inductive colorimetry := C601 | C709 | C601FR | C709FR.

(** src/convert_image/common.rs:185-191 [enum Sampler]. *)
Inductive sampler := S_Argb | S_Bgra | S_Bgr.

(** Forward coefficients, src/convert_image/common.rs:109-114 (601),
    126-131 (709), 143-148 (601FR), 160-165 (709FR). *)
Definition XR (c : colorimetry) : Z :=
  match c with C601 => 16829 | C709 => 11966 | C601FR => 19595 | C709FR => 13933 end.
(** src/convert_image/common.rs:110, 127, 144, 161 *)
Definition XG (c : colorimetry) : Z :=
  match c with C601 => 33039 | C709 => 40254 | C601FR => 38470 | C709FR => 46871 end.
(** src/convert_image/common.rs:111, 128, 145, 162 *)
Definition XB (c : colorimetry) : Z :=
  match c with C601 => 6416 | C709 => 4064 | C601FR => 7471 | C709FR => 4732 end.
(** src/convert_image/common.rs:112, 129, 146, 163 *)
Definition YR (c : colorimetry) : Z :=
  match c with C601 => -9714 | C709 => -6596 | C601FR => -11058 | C709FR => -7508 end.
(** src/convert_image/common.rs:113, 130, 147, 164 *)
Definition YG (c : colorimetry) : Z :=
  match c with C601 => -19071 | C709 => -22189 | C601FR => -21709 | C709FR => -25259 end.
(** src/convert_image/common.rs:114, 131, 148, 165 *)
Definition ZG (c : colorimetry) : Z :=
  match c with C601 => -24103 | C709 => -26145 | C601FR => -27439 | C709FR => -29763 end.

(** Backward coefficients, src/convert_image/common.rs:116-123 (601),
    133-140 (709), 150-157 (601FR), 167-174 (709FR). *)
Definition XXYM (c : colorimetry) : Z :=
  match c with C601 => 19077 | C709 => 19077 | C601FR => 16384 | C709FR => 16384 end.
(** src/convert_image/common.rs:117, 134, 151, 168 *)
Definition RCRM (c : colorimetry) : Z :=
  match c with C601 => 26149 | C709 => 29372 | C601FR => 22970 | C709FR => 25802 end.
(** src/convert_image/common.rs:118, 135, 152, 169 *)
Definition GCRM (c : colorimetry) : Z :=
  match c with C601 => 13320 | C709 => 8731 | C601FR => 11700 | C709FR => 7670 end.
(** src/convert_image/common.rs:119, 136, 153, 170 *)
Definition GCBM (c : colorimetry) : Z :=
  match c with C601 => 6419 | C709 => 3494 | C601FR => 5638 | C709FR => 3069 end.
(** src/convert_image/common.rs:120, 137, 154, 171 *)
Definition BCBM (c : colorimetry) : Z :=
  match c with C601 => 33050 | C709 => 34610 | C601FR => 29032 | C709FR => 30402 end.
(** src/convert_image/common.rs:121, 138, 155, 172 *)
Definition RN (c : colorimetry) : Z :=
  match c with C601 => 14234 | C709 => 15846 | C601FR => 11363 | C709FR => 12768 end.
(** src/convert_image/common.rs:122, 139, 156, 173 *)
Definition GP (c : colorimetry) : Z :=
  match c with C601 => 8709 | C709 => 4952 | C601FR => 8633 | C709FR => 5359 end.
(** src/convert_image/common.rs:123, 140, 157, 174 *)
Definition BN (c : colorimetry) : Z :=
  match c with C601 => 17685 | C709 => 18465 | C601FR => 14370 | C709FR => 15050 end.

(** src/convert_image/common.rs:177 *)
Definition Y_MIN : Z := 16.
(** src/convert_image/common.rs:178 *)
Definition C_HALF : Z := 128.
(** src/convert_image/common.rs:180 *)
Definition FIX16_C_HALF : Z := Z.shiftl C_HALF FIX16.
(** src/convert_image/common.rs:181 *)
Definition FIX18_C_HALF : Z := Z.shiftl C_HALF FIX18.
(** src/convert_image/common.rs:179, 182 *)
Definition Y_OFFSET : Z := Z.shiftl Y_MIN FIX16 + FIX16_HALF.
(** src/convert_image/common.rs:183 *)
Definition DEFAULT_ALPHA : Z := 255.
