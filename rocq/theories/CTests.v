(** The error and size tests of the C interface (c_tests/unit.c), run on the model, and the
    repository's conversion data run on the reference implementation of RefSpec.v. Tests of the
    model and of the specification, not proofs. *)
From Coq Require Import ZArith List Bool.
Import ListNotations.
From Verif Require Import Base Fmt CpuInfo Lib Spec Api Sets ApiSpec SetSpec RefSpec RepoTests.
Open Scope Z_scope.

(** c_tests/unit.c:520-534 [is_valid_format], on numbers. *)
Definition c_valid (f : image_format) (w h : Z) : bool :=
  let n := f_planes f in
  if f_pf f =? 5 then n =? 3
  else if (f_pf f =? 6) || (f_pf f =? 7) then (n =? 3) && Z.even w && Z.even h
  else if f_pf f =? 8 then (1 <=? n) && (n <=? 2) && Z.even w && Z.even h
  else n =? 1.

Definition c_is (r : res (c_result * option (option error_kind))) (exp : option error_kind) : bool :=
  match r, exp with
  | Ok (C_Ok, Some None) _, None => true
  | Ok (C_Err, Some (Some InvalidValue)) _, Some InvalidValue
  | Ok (C_Err, Some (Some InvalidOperation)) _, Some InvalidOperation => true
  | _, _ => false
  end.

(** c_tests/unit.c:1294-1427 [unit_convert_image_rgb_to_yuv_errors] *)
Definition c_fwd_errors (set : instruction_set) (n spf scs dcs corrupt : Z) : bool :=
  let w := 2 in let h := 2 in
  let sf := ImageFormat spf scs 1 in let df := ImageFormat 8 dcs n in
  let sp := [negb (Z.testbit corrupt 1)] in
  let dp := if n =? 1 then [negb (Z.testbit corrupt 0)] else [true; negb (Z.testbit corrupt 0)] in
  let dl := if n =? 1 then [zs 6] else [zs 4; zs 2] in
  let call a b := dcp_convert_image (converters set) w h a (Some [8]) (Some sp) b (Some [2; 2]) (Some dp) (Some None) T64 (Mem [zs 16] dl) in
  let rgb := spf <? 5 in let srgb := scs =? 0 in
  c_is (call None (Some df)) (Some InvalidValue) && c_is (call (Some sf) None) (Some InvalidValue) &&
  c_is (call None None) (Some InvalidValue) &&
  c_is (call (Some sf) (Some df))
    (first_of [(8 <? spf, InvalidValue); (4 <? scs, InvalidValue); (4 <? dcs, InvalidValue);
       (negb rgb && srgb, InvalidValue); (rgb && negb srgb, InvalidValue); (dcs <=? 0, InvalidValue);
       (negb (c_valid sf w h), InvalidValue); (negb (c_valid df w h), InvalidValue); (negb (corrupt =? 0), InvalidValue);
       (negb ((spf =? 0) || (spf =? 1) || (spf =? 2)), InvalidOperation); (negb srgb, InvalidOperation)]).

(** c_tests/unit.c:1429-1556 [unit_convert_image_yuv_to_rgb_errors] *)
Definition c_bwd_errors (set : instruction_set) (n dpf dcs scs corrupt : Z) : bool :=
  let w := 2 in let h := 2 in
  let sf := ImageFormat 8 scs n in let df := ImageFormat dpf dcs 1 in
  let dp := [negb (Z.testbit corrupt 1)] in
  let sp := if n =? 1 then [negb (Z.testbit corrupt 0)] else [true; negb (Z.testbit corrupt 0)] in
  let sl := if n =? 1 then [zs 6] else [zs 4; zs 2] in
  let call a b := dcp_convert_image (converters set) w h a (Some [2; 2]) (Some sp) b (Some [8]) (Some dp) (Some None) T64 (Mem sl [zs 16]) in
  let rgb := dpf <? 5 in let drgb := dcs =? 0 in
  c_is (call None (Some df)) (Some InvalidValue) && c_is (call (Some sf) None) (Some InvalidValue) &&
  c_is (call None None) (Some InvalidValue) &&
  c_is (call (Some sf) (Some df))
    (first_of [(4 <? scs, InvalidValue); (8 <? dpf, InvalidValue); (4 <? dcs, InvalidValue); (scs <=? 0, InvalidValue);
       (negb (c_valid sf w h), InvalidValue); (negb (c_valid df w h), InvalidValue);
       (negb rgb && drgb, InvalidValue); (rgb && negb drgb, InvalidValue); (negb (corrupt =? 0), InvalidValue);
       (negb ((dpf =? 1) || (dpf =? 3) || (dpf =? 4)), InvalidOperation); (negb drgb, InvalidOperation)]).

(** c_tests/unit.c:1558-1622 [unit_get_buffers_plane]; numbers below zero are the wrapped u32. *)
Definition c_size (w h : Z) (f : option image_format) (out : option (list Z)) : option (list Z) + option error_kind :=
  match dcp_get_buffers_size w h f None out (Some None) T64 (Mem [] []) with
  | Ok (C_Ok, Some None, Some l) _ => inl (Some l)
  | Ok (C_Err, Some (Some e), _) _ => inr (Some e)
  | _ => inl None
  end.
Definition size_status (r : option (list Z) + option error_kind) (exp : option error_kind) : bool :=
  match r, exp with
  | inl (Some _), None | inr (Some InvalidValue), Some InvalidValue => true
  | _, _ => false
  end.
Definition c_sizes (n pf : Z) : bool :=
  let w := 4098 in let h := 258 in
  let f := ImageFormat (pf mod 2 ^ 32) 0xDEADBEEF (n mod 2 ^ 32) in
  let out := Some [77; 77; 77] in
  let bad := negb ((0 <=? pf) && (pf <=? 8)) in let inv := negb (c_valid f w h) in let k := Z.to_nat pf in
  size_status (c_size 1 h (Some f) out) (first_of [(bad, InvalidValue); (6 <=? pf, InvalidValue); (inv, InvalidValue)]) &&
  size_status (c_size w 1 (Some f) out) (first_of [(bad, InvalidValue); (7 <=? pf, InvalidValue); (inv, InvalidValue)]) &&
  let r := c_size w h (Some f) out in
  size_status r (first_of [(bad, InvalidValue); (inv, InvalidValue)]) &&
  match r with
  | inl (Some l) =>
      if n =? 1 then let '(m, s) := nth k one_plane (0, 0) in nth 0 l 0 =? Z.shiftr (w * h * m) s
      else same [firstn (Z.to_nat n) l] [map (fun '(m, s) => Z.shiftr (w * h * m) s) (firstn (Z.to_nat n) (nth k per_plane []))]
  | _ => true
  end.

Example c_fwd : forallb (fun n => forallb (fun p => forallb (fun a => forallb (fun b => forallb
  (c_fwd_errors X86 n p a b) (upto 4)) (upto 6)) (upto 6)) (upto 10)) (upto 4) = true.
Proof. vm_compute. reflexivity. Qed.
Example c_bwd : forallb (fun n => forallb (fun p => forallb (fun a => forallb (fun b => forallb
  (c_bwd_errors X86 n p a b) (upto 4)) (upto 6)) (upto 6)) (upto 10)) (upto 4) = true.
Proof. vm_compute. reflexivity. Qed.
(** c_tests/unit.c:1624-1656 [unit_get_buffers_size] *)
Example c_no_format : c_size 1 1 None None = inr (Some InvalidValue).
Proof. vm_compute. reflexivity. Qed.
Example c_no_buffer : c_size 1 1 (Some (ImageFormat 0 0xDEADBEEF 1)) None = inr (Some InvalidValue).
Proof. vm_compute. reflexivity. Qed.
Example c_buffers : forallb (fun n => forallb (c_sizes n) (-1 :: upto 10)) (-1 :: upto 5) = true.
Proof. vm_compute. reflexivity. Qed.

(** ** The reference implementation on the data of tests/conversions.rs *)

Definition ref_ok (set : instruction_set) (w h : Z) (src dst : image) (sb : list (list Z)) (exp : list (list Z)) : bool :=
  match reference (set_cols set (i_pf src) (i_pf dst) w) w h src dst sb (map (map (fun _ => 0)) exp) with
  | (Done, db) => same db exp
  | _ => false
  end.
Definition ref_forward (set : instruction_set) (w h : Z) (spf dpf : pixel_format) (cs : color_space) (planes : Z)
           (pad : Z * Z * Z * Z) : bool :=
  let '(sp, yp, up, vp) := pad in
  let d := match spf with Bgra | Argb => 4 | _ => 3 end in
  let cw := w / 2 in let ch := h / 2 in
  let '(ry, ru, rv) := refs dpf cs in
  let uv y i := if i mod 2 =? 0 then row2 ru y (i / 2) else row2 rv y (i / 2) in
  let exp := match dpf with
    | I444 => [lay w h yp (row2 ry); lay w h up (row2 ru); lay w h vp (row2 rv)]
    | I420 => [lay w h yp (row2 ry); lay cw ch up (row2 ru); lay cw ch vp (row2 rv)]
    | _ => if planes =? 1 then [lay w h yp (row2 ry) ++ lay w ch yp uv] else [lay w h yp (row2 ry); lay w ch up uv]
    end in
  let strides := match dpf with
    | I444 => [auto yp (w + yp); auto up (w + up); auto vp (w + vp)]
    | I420 => [auto yp (w + yp); auto up (cw + up); auto vp (cw + vp)]
    | _ => if planes =? 1 then [auto yp (w + yp)] else [auto yp (w + yp); auto up (w + up)]
    end in
  ref_ok set w h (Image spf CsRgb 1 (Some [auto sp (w * d + sp)])) (Image dpf cs planes (Some strides)) [rgb_bytes spf w h sp] exp.
Definition ref_reorder (set : instruction_set) (w h : Z) (spf dpf : pixel_format) (sp dp : Z) : bool :=
  let sd := match spf with Bgra | Argb => 4 | _ => 3 end in let dd := match dpf with Bgra | Argb => 4 | _ => 3 end in
  let f y i := if (sd =? 4) && (i mod 4 =? 3) then 255 else (37 * i + 101 * y) mod 256 in
  let exp := lay (w * dd) h dp (fun y i => if i mod dd =? 3 then 255 else f y (i / dd * sd + (2 - i mod dd))) in
  ref_ok set w h (Image spf CsRgb 1 (Some [auto sp (w * sd + sp)])) (Image dpf CsRgb 1 (Some [auto dp (w * dd + dp)]))
    [lay (w * sd) h sp f] [exp].

Example reference_forward : forallb (fun set => forallb (fun cs => forallb (fun s => forallb (fun '(d, p) => ref_forward set 8 8 s d cs p (1, 1, 1, 1))
  [(I444, 3); (I420, 3); (Nv12, 1); (Nv12, 2)]) [Argb; Bgra; Bgr]) spaces) [X86; Neon] = true.
Proof. vm_compute. reflexivity. Qed.
Example reference_reorder : forallb (fun set => forallb (fun '(s, d) => ref_reorder set 37 2 s d 1 2)
  [(Bgr, Rgb); (Bgra, Rgb); (Rgb, Bgra)]) sets = true.
Proof. vm_compute. reflexivity. Qed.
