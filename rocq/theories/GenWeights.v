(** Model of genweights.py, the script that prints the constants of common.rs and the reference
    data of the tests. Floating point numbers of Python are IEEE 754 doubles; the operations are
    those of the standard library's [SpecFloat] (53 bits, exponents up to 1024). *)
From Coq Require Import ZArith List Bool Floats.SpecFloat.
Import ListNotations.
Open Scope Z_scope.

(** ** Python's numbers *)

(** The double of a Python integer (of less than 54 bits, so exact). *)
Definition of_int (n : Z) : spec_float := binary_normalize 53 1024 n 0 false.
(** Python's [+], [-], [*], [/] on doubles. *)
Definition fadd : spec_float -> spec_float -> spec_float := SFadd 53 1024.
Definition fsub : spec_float -> spec_float -> spec_float := SFsub 53 1024.
Definition fmul : spec_float -> spec_float -> spec_float := SFmul 53 1024.
Definition fdiv : spec_float -> spec_float -> spec_float := SFdiv 53 1024.
(** The literal [n / d], [d] a power of ten: both are exact, so the quotient is the double next
    to the decimal fraction. *)
Definition lit (n d : Z) : spec_float := fdiv (of_int n) (of_int d).
(** Python's [max]: the first argument unless the second one is greater. *)
Definition pymax (a b : spec_float) : spec_float := if SFltb a b then b else a.

(** Python's [round]: the nearest integer, halves to the even one. Infinities and NaN, on which
    Python raises an exception, do not occur and give 0. *)
Definition round_even (n d : Z) : Z :=
  let q := n / d in let r := n mod d in
  if 2 * r <? d then q else if d <? 2 * r then q + 1 else if Z.even q then q else q + 1.
Definition pyround (f : spec_float) : Z :=
  match f with
  | S754_finite s m e =>
      let v := if 0 <=? e then Z.pos m * 2 ^ e else round_even (Z.pos m) (2 ^ (- e)) in if s then - v else v
  | _ => 0
  end.
(** Python's [int]: towards zero. *)
Definition pyint (f : spec_float) : Z :=
  match f with
  | S754_finite s m e => let v := if 0 <=? e then Z.pos m * 2 ^ e else Z.pos m / 2 ^ (- e) in if s then - v else v
  | _ => 0
  end.

(** ** The script *)

(** genweights.py:21 *)
Definition FIX16 : Z := 16.
(** genweights.py:22 *)
Definition FIX18 : Z := 18.
(** genweights.py:24 *)
Definition FIX_8_14 : Z := 14.
(** genweights.py:25 *)
Definition FIX_8_14_HALF : Z := Z.shiftl 1 (FIX_8_14 - 1).
(** genweights.py:27 *)
Definition FIX16_MULT : Z := Z.shiftl 1 FIX16.
(** genweights.py:28 *)
Definition FIX8_14_MULT : Z := Z.shiftl 1 FIX_8_14.
(** genweights.py:29 *)
Definition FULL_RANGE : Z := 255.

(** genweights.py:144 [range(256)] *)
Definition bytes256 : list Z := map Z.of_nat (seq 0 256).

(** genweights.py:135-164 [max_uv_error] *)
Definition max_uv_error (yr yg zg : Z) (br bg bb cr cg cb : spec_float) : spec_float * spec_float :=
  let yb := - (yr + yg) in
  let zr := yb in
  let zb := - (zr + zg) in
  let shift := Z.shiftl 128 FIX16 + Z.shiftl 1 (FIX16 - 1) - 1 in
  fold_left (fun err red =>
    let u_tmp := yr * red + shift in
    let v_tmp := zr * red + shift in
    let uf_tmp := fadd (fmul br (of_int red)) (of_int 128) in
    let vf_tmp := fadd (fmul cr (of_int red)) (of_int 128) in
    fold_left (fun err green =>
      let u_tmp2 := yg * green + u_tmp in
      let v_tmp2 := zg * green + v_tmp in
      let uf_tmp2 := fadd (fmul bg (of_int green)) uf_tmp in
      let vf_tmp2 := fadd (fmul cg (of_int green)) vf_tmp in
      fold_left (fun err blue =>
        let u := Z.shiftr (yb * blue + u_tmp2) FIX16 in
        let v := Z.shiftr (zb * blue + v_tmp2) FIX16 in
        let uf := fadd (fmul bb (of_int blue)) uf_tmp2 in
        let vf := fadd (fmul cb (of_int blue)) vf_tmp2 in
        (pymax (fst err) (SFabs (fsub uf (of_int u))), pymax (snd err) (SFabs (fsub vf (of_int v)))))
        bytes256 err)
      bytes256 err)
    bytes256 (of_int 0, of_int 0).

(** genweights.py:175-182. The coefficients of the two models the script knows. *)
Inductive model := M601 | M709.
(** genweights.py:176, 180 *)
Definition kr (m : model) : spec_float := match m with M601 => lit 299 1000 | M709 => lit 2126 10000 end.
(** genweights.py:177, 181 *)
Definition kg (m : model) : spec_float := match m with M601 => lit 587 1000 | M709 => lit 7152 10000 end.
(** genweights.py:178, 182 *)
Definition kb (m : model) : spec_float := match m with M601 => lit 114 1000 | M709 => lit 722 10000 end.

(** genweights.py:191-201 *)
Definition Y_MIN (full_range : bool) : Z := if full_range then 0 else 16.
(** genweights.py:193, 199 *)
Definition Y_MAX (full_range : bool) : Z := if full_range then 255 else 235.
(** genweights.py:194, 200 *)
Definition C_MIN (full_range : bool) : Z := if full_range then 0 else 16.
(** genweights.py:195, 201 *)
Definition C_MAX (full_range : bool) : Z := if full_range then 255 else 240.
(** genweights.py:204-208; [/] of two integers is the double next to the quotient. *)
Definition C_HALF (full_range : bool) : Z := Z.shiftr (C_MAX full_range + C_MIN full_range) 1.
(** genweights.py:207 *)
Definition Y_SCALE (full_range : bool) : spec_float := lit (Y_MAX full_range - Y_MIN full_range) FULL_RANGE.
(** genweights.py:208 *)
Definition C_SCALE (full_range : bool) : spec_float := lit (C_MAX full_range - C_MIN full_range) FULL_RANGE.

(** genweights.py:211-230, coefficients of the forward transformation. *)
Record forward := Forward { ar : spec_float; ag : spec_float; ab : spec_float; br : spec_float; bg : spec_float;
  bb : spec_float; cr : spec_float; cg : spec_float; cb : spec_float }.
(** genweights.py:214, literal 1.0 *)
Definition one : spec_float := of_int 1.
(** genweights.py:214, literal 2.0 *)
Definition two : spec_float := of_int 2.
(** genweights.py:216, literal 0.5 *)
Definition half : spec_float := lit 5 10.
(** genweights.py:211-230 *)
Definition forward_coefs (m : model) (full_range : bool) : forward :=
  let d := fmul two (fsub one (kb m)) in
  let d' := fmul two (fsub one (kr m)) in
  let y v := if full_range then v else fmul v (Y_SCALE full_range) in
  let c v := if full_range then v else fmul v (C_SCALE full_range) in
  Forward (y (kr m)) (y (kg m)) (y (kb m))
    (c (fdiv (SFopp (kr m)) d)) (c (fdiv (SFopp (kg m)) d)) (c half)
    (c half) (c (fdiv (SFopp (kg m)) d')) (c (fdiv (SFopp (kb m)) d')).

(** genweights.py:232-234 and 237-239 *)
Definition fix16 (f : spec_float) : Z := pyround (fmul (of_int FIX16_MULT) f).

(** genweights.py:237-255. [better] says whether the first of the two corrections has no greater
    error than the second one. *)
Definition chroma_weights (better : Z -> Z -> Z -> Z -> bool) (f : forward) : Z * Z * Z :=
  let yr := fix16 (br f) in
  let yg := fix16 (bg f) in
  let zg := fix16 (cg f) in
  let diff := -32767 - (yr + yg) in
  if 0 <? diff then (if better yr yg zg diff then (yr + diff, yg, zg) else (yr, yg + diff, zg))
  else (yr, yg, zg).
(** genweights.py:244-253 *)
Definition first_better (f : forward) (yr yg zg diff : Z) : bool :=
  let e yr yg := let '(u, v) := max_uv_error yr yg zg (br f) (bg f) (bb f) (cr f) (cg f) (cb f) in pymax u v in
  SFleb (e (yr + diff) yg) (e yr (yg + diff)).

(** The constants printed, in the order of common.rs: XR, XG, XB, YR, YG, ZG (genweights.py:262-267)
    and XXYM, RCRM, GCRM, GCBM, BCBM, RN, GP, BN (271-297). The errors printed before them
    (235, 257) are left out. *)
Definition inverse_weights (m : model) (full_range : bool) : list Z :=
  let ikb := fsub one (kb m) in
  let ikr := fsub one (kr m) in
  let y_scale := fdiv one (Y_SCALE full_range) in
  let cs := C_SCALE full_range in
  let rz := fdiv (fmul two ikr) cs in
  let gy := fdiv (fmul (fmul two ikb) (kb m)) (fmul cs (kg m)) in
  let gz := fdiv (fmul (fmul two ikr) (kr m)) (fmul cs (kg m)) in
  let by_ := fdiv (fmul two ikb) cs in
  let fix8_14 f := pyint (fadd (fmul (of_int FIX8_14_MULT) f) half) in
  let s := fix8_14 y_scale in
  let rz := fix8_14 rz in
  let gy := fix8_14 gy in
  let gz := fix8_14 gz in
  let by_ := fix8_14 by_ in
  let ym := Y_MIN full_range in
  let ch := C_HALF full_range in
  let rw := rz * ch + s * ym - FIX_8_14_HALF in
  let gw := gy * ch + gz * ch - s * ym + FIX_8_14_HALF in
  let bw := s * ym + by_ * ch - FIX_8_14_HALF in
  [s; rz; gz; gy; by_; Z.shiftr rw 8; Z.shiftr gw 8; Z.shiftr bw 8].
(** genweights.py:210-297 *)
Definition script_with (better : Z -> Z -> Z -> Z -> bool) (m : model) (full_range : bool) : list Z :=
  let f := forward_coefs m full_range in
  let '(yr, yg, zg) := chroma_weights better f in
  [fix16 (ar f); fix16 (ag f); fix16 (ab f); yr; yg; zg] ++ inverse_weights m full_range.
(** The whole script for [model] and [full_range]. *)
Definition script (m : model) (full_range : bool) : list Z :=
  script_with (first_better (forward_coefs m full_range)) m full_range.

(** ** Reference data of the tests *)

(** A pixel of [RGB_SRC]: red, green, blue, alpha. *)
Definition rgba := (Z * Z * Z * Z)%type.

(** genweights.py:31-112 *)
Definition RGB_SRC : list (list rgba) :=
  [[(161, 24, 44, 58); (35, 95, 51, 205); (177, 30, 252, 158); (248, 94, 62, 28); (247, 51, 135, 38); (98, 147, 200, 127); (68, 103, 20, 124); (233, 227, 165, 0)];
   [(251, 19, 32, 170); (235, 183, 25, 77); (146, 81, 218, 161); (25, 124, 96, 56); (22, 127, 167, 179); (247, 34, 40, 53); (164, 193, 159, 24); (96, 158, 17, 223)];
   [(240, 123, 14, 108); (0, 105, 52, 116); (194, 219, 244, 47); (216, 254, 153, 84); (116, 77, 133, 68); (190, 96, 190, 133); (118, 4, 170, 115); (218, 145, 23, 50)];
   [(202, 120, 126, 231); (42, 28, 137, 40); (136, 227, 210, 177); (254, 140, 238, 88); (90, 195, 170, 67); (125, 242, 148, 88); (1, 91, 190, 245); (31, 100, 190, 225)];
   [(207, 49, 249, 131); (48, 120, 34, 82); (43, 145, 253, 141); (83, 205, 105, 44); (16, 9, 157, 22); (253, 131, 178, 148); (142, 236, 98, 6); (246, 190, 15, 213)];
   [(72, 207, 6, 168); (220, 39, 6, 219); (244, 14, 252, 45); (159, 106, 17, 184); (222, 72, 230, 39); (6, 185, 30, 35); (101, 223, 30, 14); (40, 71, 16, 244)];
   [(124, 121, 46, 190); (244, 206, 61, 169); (43, 130, 87, 247); (170, 10, 238, 229); (12, 168, 14, 220); (96, 60, 226, 235); (206, 93, 122, 117); (126, 168, 203, 39)];
   [(181, 88, 248, 45); (65, 24, 208, 166); (24, 21, 151, 85); (60, 86, 9, 153); (225, 80, 156, 159); (210, 181, 6, 214); (17, 142, 255, 163); (189, 137, 72, 87)]].

(** genweights.py:300-305; the weights are those of the first six constants. *)
Record printed := Printed { xr : Z; xg : Z; xb : Z; yr : Z; yg : Z; zg : Z }.
(** genweights.py:300 *)
Definition yb (p : printed) : Z := - (yr p + yg p).
(** genweights.py:301 *)
Definition zr (p : printed) : Z := yb p.
(** genweights.py:302 *)
Definition zb (p : printed) : Z := - (zr p + zg p).
(** genweights.py:303 *)
Definition uv_shift : Z := Z.shiftl 128 FIX16 + Z.shiftl 1 (FIX16 - 1) - 1.
(** genweights.py:304 *)
Definition uv2_shift : Z := Z.shiftl 128 FIX18 + Z.shiftl 1 (FIX18 - 1) - 1.
(** genweights.py:305 *)
Definition y_shift (full_range : bool) : Z := Z.shiftl (Y_MIN full_range) FIX16 + Z.shiftl 1 (FIX16 - 1).

(** genweights.py:307-312, 314-319, 321-326: one row of the tables Y, CB and CR. *)
Definition y_row (p : printed) (full_range : bool) (row : list rgba) : list Z :=
  map (fun '(r, g, b, a) => Z.shiftr (xr p * r + xg p * g + xb p * b + y_shift full_range) FIX16) row.
(** genweights.py:314-319 *)
Definition u_row (p : printed) (row : list rgba) : list Z :=
  map (fun '(r, g, b, a) => Z.shiftr (yr p * r + yg p * g + yb p * b + uv_shift) FIX16) row.
(** genweights.py:321-326 *)
Definition v_row (p : printed) (row : list rgba) : list Z :=
  map (fun '(r, g, b, a) => Z.shiftr (zr p * r + zg p * g + zb p * b + uv_shift) FIX16) row.

(** genweights.py:329-346 and 348-365: entry (i, j) of the tables CB2 and CR2. *)
Definition src_at (src : list (list rgba)) (j i : nat) : rgba := nth i (nth j src []) (0, 0, 0, 0).
(** genweights.py:336 *)
Definition red (p : rgba) : Z := let '(r, _, _, _) := p in r.
(** genweights.py:338 *)
Definition green (p : rgba) : Z := let '(_, g, _, _) := p in g.
(** genweights.py:340 *)
Definition blue (p : rgba) : Z := let '(_, _, b, _) := p in b.
(** genweights.py:333-341 *)
Definition block (c : rgba -> Z) (src : list (list rgba)) (j i : nat) : Z :=
  let ii := (2 * i)%nat in let ij := (2 * j)%nat in
  c (src_at src ij ii) + c (src_at src (ij + 1) ii) + c (src_at src ij (ii + 1)) + c (src_at src (ij + 1) (ii + 1)).
(** genweights.py:329-346 *)
Definition u2_at (p : printed) (src : list (list rgba)) (j i : nat) : Z :=
  Z.shiftr (yr p * block red src j i + yg p * block green src j i + yb p * block blue src j i + uv2_shift) FIX18.
(** genweights.py:348-365 *)
Definition v2_at (p : printed) (src : list (list rgba)) (j i : nat) : Z :=
  Z.shiftr (zr p * block red src j i + zg p * block green src j i + zb p * block blue src j i + uv2_shift) FIX18.
