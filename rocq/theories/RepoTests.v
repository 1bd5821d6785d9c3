(** The repository's own conversion tests (tests/conversions.rs), run on the model. These are tests
    of the model (is it the program its authors test?), not proofs about it. *)
From Coq Require Import ZArith List Bool.
Import ListNotations.
From Verif Require Import Base Fmt CpuInfo Lib Spec Api Sets.
Open Scope Z_scope.

(** tests/conversions.rs:21-102 [RGB_SRC], row after row. *)
Definition RGB_SRC : list (list Z) :=
  [[161; 24; 44; 58]; [35; 95; 51; 205]; [177; 30; 252; 158]; [248; 94; 62; 28]; [247; 51; 135; 38]; [98; 147; 200; 127]; [68; 103; 20; 124]; [233; 227; 165; 0]; [251; 19; 32; 170]; [235; 183; 25; 77]; [146; 81; 218; 161]; [25; 124; 96; 56]; [22; 127; 167; 179]; [247; 34; 40; 53]; [164; 193; 159; 24]; [96; 158; 17; 223]; [240; 123; 14; 108]; [0; 105; 52; 116]; [194; 219; 244; 47]; [216; 254; 153; 84]; [116; 77; 133; 68]; [190; 96; 190; 133]; [118; 4; 170; 115]; [218; 145; 23; 50]; [202; 120; 126; 231]; [42; 28; 137; 40]; [136; 227; 210; 177]; [254; 140; 238; 88]; [90; 195; 170; 67]; [125; 242; 148; 88]; [1; 91; 190; 245]; [31; 100; 190; 225]; [207; 49; 249; 131]; [48; 120; 34; 82]; [43; 145; 253; 141]; [83; 205; 105; 44]; [16; 9; 157; 22]; [253; 131; 178; 148]; [142; 236; 98; 6]; [246; 190; 15; 213]; [72; 207; 6; 168]; [220; 39; 6; 219]; [244; 14; 252; 45]; [159; 106; 17; 184]; [222; 72; 230; 39]; [6; 185; 30; 35]; [101; 223; 30; 14]; [40; 71; 16; 244]; [124; 121; 46; 190]; [244; 206; 61; 169]; [43; 130; 87; 247]; [170; 10; 238; 229]; [12; 168; 14; 220]; [96; 60; 226; 235]; [206; 93; 122; 117]; [126; 168; 203; 39]; [181; 88; 248; 45]; [65; 24; 208; 166]; [24; 21; 151; 85]; [60; 86; 9; 153]; [225; 80; 156; 159]; [210; 181; 6; 214]; [17; 142; 255; 163]; [189; 137; 72; 87]].
Definition Y_BT601 : list (list Z) := [[74; 78; 101; 133; 118; 135; 87; 206]; [93; 171; 116; 94; 102; 100; 171; 122]; [141; 74; 200; 214; 98; 132; 65; 147]; [141; 54; 186; 175; 154; 185; 81; 93]; [118; 92; 125; 151; 40; 164; 181; 176]; [139; 93; 110; 112; 132; 114; 157; 64]; [113; 188; 101; 88; 105; 93; 128; 153]; [131; 65; 48; 76; 129; 162; 117; 141]].
Definition CB_BT601 : list (list Z) := [[116; 118; 204; 91; 136; 159; 97; 100]; [99; 51; 179; 130; 161; 99; 117; 75]; [63; 120; 143; 89; 147; 155; 184; 64]; [118; 174; 134; 154; 133; 104; 185; 178]; [192; 101; 191; 102; 192; 131; 81; 43]; [60; 87; 198; 81; 175; 86; 61; 108]; [95; 59; 122; 204; 83; 196; 124; 150]; [184; 203; 185; 98; 140; 47; 196; 92]].
Definition CR_BT601 : list (list Z) := [[187; 105; 177; 198; 208; 103; 119; 135]; [229; 162; 147; 87; 79; 221; 118; 111]; [187; 86; 115; 119; 141; 163; 166; 169]; [164; 126; 89; 171; 84; 83; 81; 91]; [183; 103; 75; 82; 121; 178; 97; 165]; [83; 210; 212; 158; 183; 60; 88; 118]; [135; 155; 93; 182; 70; 132; 176; 107]; [157; 133; 120; 122; 186; 153; 65; 155]].
Definition CB2_BT601 : list (list Z) := [[96; 151; 139; 97]; [119; 130; 135; 153]; [110; 143; 146; 73]; [135; 152; 116; 140]].
Definition CR2_BT601 : list (list Z) := [[171; 152; 153; 121]; [141; 124; 118; 127]; [145; 132; 135; 117]; [145; 129; 135; 126]].
Definition Y_BT709 : list (list Z) := [[63; 84; 82; 123; 101; 137; 93; 208]; [75; 173; 106; 103; 108; 84; 174; 132]; [136; 84; 201; 221; 93; 121; 51; 146]; [134; 49; 193; 163; 163; 197; 84; 95]; [99; 101; 129; 164; 34; 154; 193; 179]; [157; 80; 85; 111; 115; 133; 173; 68]; [116; 191; 109; 68; 122; 84; 118; 155]; [118; 56; 43; 80; 116; 166; 122; 139]].
Definition CB_BT709 : list (list Z) := [[123; 115; 211; 98; 145; 156; 95; 100]; [110; 53; 182; 126; 156; 109; 116; 72]; [68; 115; 141; 87; 149; 160; 189; 67]; [122; 174; 130; 160; 128; 98; 181; 174]; [200; 97; 186; 96; 192; 136; 77; 45]; [53; 95; 209; 84; 182; 78; 56; 107]; [95; 60; 118; 212; 76; 197; 129; 148]; [189; 205; 185; 97; 147; 48; 190; 94]].
Definition CR_BT709 : list (list Z) := [[187; 103; 184; 197; 211; 104; 116; 133]; [229; 157; 151; 86; 80; 221; 117; 106]; [184; 84; 116; 115; 143; 166; 171; 165]; [164; 130; 89; 174; 83; 80; 84; 94]; [189; 100; 79; 78; 125; 180; 92; 160]; [77; 209; 219; 155; 188; 56; 82; 117]; [132; 151; 92; 189; 66; 137; 176; 108]; [162; 139; 124; 120; 189; 148; 69; 153]].
Definition CB2_BT709 : list (list Z) := [[100; 154; 142; 96]; [120; 130; 134; 153]; [112; 144; 147; 71]; [137; 153; 117; 140]].
Definition CR2_BT709 : list (list Z) := [[169; 154; 154; 118]; [140; 124; 118; 129]; [144; 133; 137; 113]; [146; 131; 135; 127]].
Definition Y_BT601FR : list (list Z) := [[67; 72; 99; 136; 119; 138; 83; 222]; [90; 181; 116; 91; 100; 98; 180; 123]; [146; 68; 214; 231; 95; 135; 57; 153]; [145; 45; 198; 185; 161; 196; 75; 90]; [119; 89; 127; 157; 28; 173; 192; 187]; [144; 89; 110; 112; 135; 114; 165; 55]; [113; 201; 99; 84; 104; 90; 130; 159]; [134; 57; 37; 69; 132; 170; 118; 145]].
Definition CB_BT601FR : list (list Z) := [[115; 116; 214; 86; 137; 163; 92; 96]; [95; 40; 186; 131; 166; 95; 116; 68]; [54; 119; 145; 84; 149; 159; 192; 55]; [117; 180; 135; 158; 133; 101; 193; 185]; [201; 97; 199; 99; 201; 131; 75; 31]; [50; 81; 208; 75; 182; 81; 52; 106]; [90; 49; 121; 215; 77; 205; 123; 153]; [192; 213; 192; 94; 142; 36; 206; 87]].
Definition CR_BT601FR : list (list Z) := [[195; 102; 183; 208; 219; 99; 117; 136]; [243; 167; 149; 81; 72; 234; 116; 108]; [195; 80; 113; 117; 143; 167; 172; 174]; [169; 126; 84; 177; 78; 77; 75; 86]; [191; 99; 68; 75; 119; 185; 92; 170]; [77; 221; 224; 162; 190; 51; 83; 117]; [136; 159; 88; 189; 63; 133; 182; 104]; [161; 134; 119; 121; 194; 157; 56; 159]].
Definition CB2_BT601FR : list (list Z) := [[92; 154; 140; 93]; [118; 130; 136; 156]; [107; 145; 149; 66]; [136; 156; 115; 142]].
Definition CR2_BT601FR : list (list Z) := [[177; 155; 156; 120]; [142; 123; 116; 127]; [147; 132; 136; 116]; [147; 129; 137; 125]].
Definition Y_BT709FR : list (list Z) := [[55; 79; 77; 124; 99; 140; 90; 224]; [69; 183; 105; 101; 108; 80; 184; 135]; [140; 79; 215; 239; 89; 123; 40; 152]; [138; 39; 206; 171; 171; 210; 79; 92]; [97; 98; 131; 172; 21; 160; 206; 189]; [164; 75; 80; 111; 115; 136; 183; 60]; [116; 204; 108; 60; 124; 80; 119; 162]; [119; 46; 31; 75; 116; 175; 124; 143]].
Definition CB_BT709FR : list (list Z) := [[122; 113; 222; 94; 148; 160; 91; 96]; [108; 43; 189; 125; 160; 107; 114; 65]; [60; 114; 143; 82; 152; 164; 198; 59]; [122; 181; 130; 164; 128; 94; 188; 181]; [210; 93; 194; 92; 201; 138; 70; 34]; [43; 91; 221; 77; 190; 71; 45; 104]; [90; 51; 116; 224; 69; 207; 130; 150]; [197; 215; 193; 92; 149; 37; 199; 90]].
Definition CR_BT709FR : list (list Z) := [[196; 100; 191; 206; 222; 101; 114; 134]; [243; 161; 154; 80; 74; 234; 115; 103]; [191; 78; 114; 114; 145; 171; 177; 170]; [169; 130; 83; 181; 77; 74; 78; 89]; [198; 96; 72; 72; 125; 187; 87; 164]; [70; 220; 232; 159; 196; 46; 76; 115]; [133; 154; 86; 198; 57; 138; 183; 105]; [167; 140; 124; 119; 197; 151; 60; 157]].
Definition CB2_BT709FR : list (list Z) := [[97; 158; 144; 91]; [119; 130; 134; 156]; [109; 146; 150; 63]; [138; 156; 116; 142]].
Definition CR2_BT709FR : list (list Z) := [[175; 158; 158; 117]; [142; 123; 117; 129]; [146; 134; 138; 111]; [148; 132; 136; 126]].
Definition Y_SRC : list (list Z) := [[16; 82; 145; 210; 41; 107; 169; 235]; [16; 63; 173; 219; 32; 78; 188; 235]; [0; 76; 149; 225; 29; 105; 178; 255]; [0; 54; 182; 237; 18; 73; 201; 255]].
Definition U_SRC : list (list Z) := [[128; 90; 54; 16; 240; 202; 166; 128]; [128; 102; 42; 16; 240; 214; 154; 128]; [128; 84; 43; 0; 255; 212; 171; 128]; [128; 98; 29; 0; 255; 226; 157; 128]].
Definition V_SRC : list (list Z) := [[128; 240; 34; 146; 110; 222; 16; 128]; [128; 240; 26; 138; 118; 230; 16; 128]; [128; 255; 21; 148; 107; 234; 0; 128]; [128; 255; 12; 139; 116; 243; 0; 128]].

Definition row2 (t : list (list Z)) (y x : Z) : Z := nth (Z.to_nat x) (nth (Z.to_nat y) t []) (-1).
Definition upto (n : Z) : list Z := map Z.of_nat (seq 0 (Z.to_nat n)).

(** [h] rows of [w] bytes with [pad] zero bytes after each. *)
Definition lay (w h pad : Z) (f : Z -> Z -> Z) : list Z :=
  flat_map (fun y => map (f y) (upto w) ++ repeat 0 (Z.to_nat pad)) (upto h).

Definition auto (pad stride : Z) : Z := if pad =? 0 then 0 else stride.

(** tests/conversions.rs:396-415 *)
Definition rgb_bytes (pf : pixel_format) (w h pad : Z) : list Z :=
  let d := match pf with Bgra | Argb => 4 | _ => 3 end in
  lay (w * d) h pad (fun y i =>
    let p c := row2 RGB_SRC (y * 8 + i / d) c in
    match pf with
    | Argb => p ((i mod 4 + 3) mod 4)
    | Bgra => p (nth (Z.to_nat (i mod 4)) [2; 1; 0; 3] 0)
    | _ => p (2 - i mod 3)
    end).

Definition refs (pf : pixel_format) (cs : color_space) : list (list Z) * list (list Z) * list (list Z) :=
  match pf, cs with
  | I444, Bt601 => (Y_BT601, CB_BT601, CR_BT601) | I444, Bt709 => (Y_BT709, CB_BT709, CR_BT709)
  | I444, Bt601FR => (Y_BT601FR, CB_BT601FR, CR_BT601FR) | I444, _ => (Y_BT709FR, CB_BT709FR, CR_BT709FR)
  | _, Bt601 => (Y_BT601, CB2_BT601, CR2_BT601) | _, Bt709 => (Y_BT709, CB2_BT709, CR2_BT709)
  | _, Bt601FR => (Y_BT601FR, CB2_BT601FR, CR2_BT601FR) | _, _ => (Y_BT709FR, CB2_BT709FR, CR2_BT709FR)
  end.

Definition same (a b : list (list Z)) : bool := if list_eq_dec (list_eq_dec Z.eq_dec) a b then true else false.

Definition T64 : target := {| usz := 2 ^ 64; checked := true; big := false |}.

(** tests/conversions.rs:364-500 [rgb_to_yuv_size_mode_pad] *)
Definition rgb_to_yuv_test (set : instruction_set) (w h : Z) (spf dpf : pixel_format) (cs : color_space) (planes : Z)
           (pad : Z * Z * Z * Z) : bool :=
  let '(sp, yp, up, vp) := pad in
  let d := match spf with Bgra | Argb => 4 | _ => 3 end in
  let cw := w / 2 in let ch := h / 2 in
  let '(ry, ru, rv) := refs dpf cs in
  let uv y i := if i mod 2 =? 0 then row2 ru y (i / 2) else row2 rv y (i / 2) in
  let z (l : list (list Z)) := map (map (fun _ => 0)) l in
  let exp := match dpf with
    | I444 => [lay w h yp (row2 ry); lay w h up (row2 ru); lay w h vp (row2 rv)]
    | I420 => [lay w h yp (row2 ry); lay cw ch up (row2 ru); lay cw ch vp (row2 rv)]
    | _ => if planes =? 1 then [lay w h yp (row2 ry) ++ lay w ch yp uv] else [lay w h yp (row2 ry); lay w ch up uv]
    end in
  let strides := match dpf with
    | I444 => [auto yp (w + yp); auto up (w + up); auto vp (w + vp)]
    | I420 => [auto yp (w + yp); auto up (cw + up); auto vp (cw + vp)]
    | _ => if planes =? 1 then [auto yp (w + yp)] else [auto yp (w + yp); auto up (w + up)]
    end in
  match convert (converters set) T64 w h (Image spf CsRgb 1 (Some [auto sp (w * d + sp)])) (Image dpf cs planes (Some strides))
          [rgb_bytes spf w h sp] (z exp) with
  | Ok Success m => (w =? 0) || (h =? 0) || same (dsts m) exp
  | _ => false
  end.

Definition cs_index (cs : color_space) : Z := match cs with Bt601 => 0 | Bt709 => 1 | Bt601FR => 2 | _ => 3 end.

Definition near (a b : Z) : bool := Z.abs (a - b) <=? 2.

(** tests/conversions.rs:660-850, 900-1010 [yuv_to_bgra_size_format_mode_stride], [yuv_to_rgb_size_format_mode_stride] *)
Definition yuv_to_rgb_test (set : instruction_set) (w h : Z) (spf dpf : pixel_format) (cs : color_space) (planes : Z)
           (pad : Z * Z * Z * Z) : bool :=
  let '(yp, up, vp, dp) := pad in
  let cw := w / 2 in let ch := h / 2 in let k := cs_index cs in
  let ix x := (x / 2) mod 8 in
  let fy (_ x : Z) := row2 Y_SRC k (ix x) in
  let fu (_ x : Z) := row2 U_SRC k (ix x) in let fv (_ x : Z) := row2 V_SRC k (ix x) in
  let fu2 (_ x : Z) := row2 U_SRC k (x mod 8) in let fv2 (_ x : Z) := row2 V_SRC k (x mod 8) in
  let uv (y i : Z) := if i mod 2 =? 0 then fu y i else fv y i in
  let src := match spf with
    | I444 => [lay w h yp fy; lay w h up fu; lay w h vp fv]
    | I420 => [lay w h yp fy; lay cw ch up fu2; lay cw ch vp fv2]
    | _ => if planes =? 1 then [lay w h yp fy ++ lay w ch yp uv] else [lay w h yp fy; lay w ch up uv]
    end in
  let strides := match spf with
    | I444 => [auto yp (w + yp); auto up (w + up); auto vp (w + vp)]
    | I420 => [auto yp (w + yp); auto up (cw + up); auto vp (cw + vp)]
    | _ => if planes =? 1 then [auto yp (w + yp)] else [auto yp (w + yp); auto up (w + up)]
    end in
  let d := match dpf with Rgb => 3 | _ => 4 end in
  let byte (i : Z) := match i mod d with
    | 0 => match dpf with Bgra => 2 | _ => 0 end
    | 1 => 1 | 2 => match dpf with Bgra => 0 | _ => 2 end | _ => 3 end in
  let exp y i := if byte i =? 3 then 255 else if Z.testbit (ix (i / d)) (byte i) then 255 else 0 in
  match convert (converters set) T64 w h (Image spf cs planes (Some strides)) (Image dpf CsRgb 1 (Some [auto dp (w * d + dp)]))
          src [lay (w * d) h dp (fun _ _ => 0)] with
  | Ok Success m =>
      match dsts m with
      | [b] => forallb (fun y => forallb (fun i =>
          let v := nth (Z.to_nat (y * (w * d + dp) + i)) b (-1) in
          if i <? w * d then (if byte i =? 3 then v =? 255 else near v (exp y i)) else v =? 0) (upto (w * d + dp))) (upto h)
      | _ => false
      end
  | _ => false
  end.

(** tests/conversions.rs:1070-1160 [rgb_ok], with bytes 37 k instead of random ones. *)
Definition rgb_test (set : instruction_set) (w h : Z) (spf dpf : pixel_format) (sp dp : Z) : bool :=
  let sd := match spf with Bgra | Argb => 4 | _ => 3 end in let dd := match dpf with Bgra | Argb => 4 | _ => 3 end in
  let f y i := if (sd =? 4) && (i mod 4 =? 3) then 255 else (37 * i + 101 * y) mod 256 in
  let exp := lay (w * dd) h dp (fun y i => if i mod dd =? 3 then 255 else f y (i / dd * sd + (2 - i mod dd))) in
  match convert (converters set) T64 w h (Image spf CsRgb 1 (Some [auto sp (w * sd + sp)])) (Image dpf CsRgb 1 (Some [auto dp (w * dd + dp)]))
          [lay (w * sd) h sp f] [lay (w * dd) h dp (fun _ _ => 0)] with
  | Ok Success m => same (dsts m) [exp]
  | _ => false
  end.

Definition prod4 (n : Z) : list (Z * Z * Z * Z) :=
  flat_map (fun a => flat_map (fun b => flat_map (fun c => map (fun d => (a, b, c, d)) (upto n)) (upto n)) (upto n)) (upto n).
Definition sets := [X86; Sse2; Avx2; Neon].
Definition spaces := [Bt601; Bt709; Bt601FR; Bt709FR].

(** ** tests/errors.rs *)

(** tests/errors.rs:57-71 [is_valid_format]: true if it is *not* valid. *)
Definition not_valid (pf : pixel_format) (n w h : Z) : bool :=
  match pf with
  | I444 => negb (n =? 3)
  | I422 | I420 => negb (n =? 3) || Z.odd w || Z.odd h
  | Nv12 => (n <? 1) || (2 <? n) || Z.odd w || Z.odd h
  | _ => negb (n =? 1)
  end.

Definition pixel_formats := [Argb; Bgra; Bgr; Rgba; Rgb; I444; I422; I420; Nv12].
Definition color_spaces := [CsRgb; Bt601; Bt709; Bt601FR; Bt709FR].
Definition zs (n : Z) : list Z := repeat 0 (Z.to_nat n).

Inductive status := S_ok | S_err (e : error_kind) | S_fault.
Definition status_of (r : res outcome) : status :=
  match r with Ok Success _ => S_ok | Ok (Err e) _ => S_err e | Fault _ => S_fault end.
Definition is_err (r : res outcome) (e : error_kind) : bool :=
  match status_of r, e with
  | S_err InvalidValue, InvalidValue | S_err InvalidOperation, InvalidOperation | S_err NotEnoughData, NotEnoughData => true
  | _, _ => false end.
Definition is_ok (r : res outcome) : bool := match status_of r with S_ok => true | _ => false end.

Definition set_buf (i : nat) (l : list (list Z)) : list (list Z) := upd l i [].

(** tests/errors.rs:85-178 [check_bounds] *)
Definition check_bounds (set : instruction_set) (w h : Z) (src dst : image) (sb db : list (list Z)) : bool :=
  let src := Image (i_pf src) (i_cs src) (i_planes src) None in let dst := Image (i_pf dst) (i_cs dst) (i_planes dst) None in
  let c := convert (converters set) T64 w h src dst in
  is_err (c (firstn (Z.to_nat (i_planes src - 1)) sb) db) NotEnoughData &&
  is_err (c sb (firstn (Z.to_nat (i_planes dst - 1)) db)) NotEnoughData &&
  forallb (fun i => is_err (c (set_buf i sb) db) NotEnoughData) (seq 0 (Z.to_nat (i_planes src))) &&
  forallb (fun i => is_err (c sb (set_buf i db)) NotEnoughData) (seq 0 (Z.to_nat (i_planes dst))).

Definition check_status (set : instruction_set) (w h : Z) (src dst : image) (sb db : list (list Z)) (exp : option error_kind) : bool :=
  let r := convert (converters set) T64 w h src dst sb db in
  match exp with
  | Some e => is_err r e
  | None => is_ok r && check_bounds set w h src dst sb db
  end.

Definition depth (pf : pixel_format) : Z := match pf with Bgra | Argb => 4 | _ => 3 end.
Fixpoint first_of (l : list (bool * error_kind)) : option error_kind :=
  match l with [] => None | (true, e) :: _ => Some e | _ :: t => first_of t end.
Definition pf_is (a b : pixel_format) : bool := pf_u32 a =? pf_u32 b.

(** tests/errors.rs:180-250 [rgb_conversion_errors] *)
Definition rgb_errors (set : instruction_set) (w h : Z) (spf dpf : pixel_format) (n : Z) : bool :=
  let ss := w * depth spf in let ds := w * depth dpf in
  check_status set w h (Image spf CsRgb 1 (Some [ss])) (Image dpf CsRgb n (Some [ds])) [zs (ss * h)] [zs (ds * h)]
    (first_of [(not_valid spf 1 w h, InvalidValue); (not_valid dpf n w h, InvalidValue)]).

(** The YCbCr buffers and strides of tests/errors.rs:252-310, 370-420. *)
Definition yuv_bufs (pf : pixel_format) (n w h : Z) : list (list Z) * list Z :=
  let cw := match pf with I420 => w / 2 | _ => w end in let ch := match pf with I444 => h | _ => h / 2 end in
  match pf with
  | Nv12 => ([zs (nth (Z.to_nat n) [0; w * h + cw * ch; w * h; 0] 0); zs (cw * ch)], if 1 <? n then [w; cw] else [w])
  | _ => ([zs (w * h); zs (cw * ch); zs (cw * ch)], [w; cw; cw])
  end.

(** tests/errors.rs:252-365 [rgb_to_yuv_errors] *)
Definition fwd_errors (set : instruction_set) (w h : Z) (dpf spf : pixel_format) (n : Z) (scs dcs : color_space) : bool :=
  let '(db, ds) := yuv_bufs dpf n w h in
  let src_rgb := pf_u32 spf <? pf_u32 I444 in let scs_rgb := cs_u32 scs =? cs_u32 CsRgb in
  check_status set w h (Image spf scs 1 None) (Image dpf dcs n (Some ds)) [zs (w * h * depth spf)] db
    (first_of [(negb src_rgb && scs_rgb, InvalidValue); (src_rgb && negb scs_rgb, InvalidValue);
       (cs_u32 dcs =? cs_u32 CsRgb, InvalidValue); (not_valid spf 1 w h, InvalidValue); (not_valid dpf n w h, InvalidValue);
       (negb (pf_is spf Argb) && negb (pf_is spf Bgra) && negb (pf_is spf Bgr), InvalidOperation);
       (negb scs_rgb, InvalidOperation)]).

(** tests/errors.rs:367-480 [yuv_to_rgb_errors] *)
Definition bwd_errors (set : instruction_set) (w h : Z) (spf dpf : pixel_format) (n : Z) (scs dcs : color_space) : bool :=
  let '(sb, ss) := yuv_bufs spf n w h in
  let dst_rgb := pf_u32 dpf <? pf_u32 I444 in let dcs_rgb := cs_u32 dcs =? cs_u32 CsRgb in
  check_status set w h (Image spf scs n (Some ss)) (Image dpf dcs 1 None) sb [zs (w * h * 4)]
    (first_of [(cs_u32 scs =? cs_u32 CsRgb, InvalidValue); (negb dst_rgb && dcs_rgb, InvalidValue); (dst_rgb && negb dcs_rgb, InvalidValue);
       (not_valid spf n w h, InvalidValue); (not_valid dpf 1 w h, InvalidValue);
       (negb (pf_is dpf Bgra || pf_is dpf Rgba || (pf_is spf Nv12 && pf_is dpf Rgb)), InvalidOperation);
       (negb dcs_rgb, InvalidOperation)]).

(** ** tests/tests.rs:95-195 [buffers_size] *)
Definition size_is (w h : Z) (pf : pixel_format) (n : Z) (strides : option (list Z)) (out : list Z) : option (list Z) + error_kind :=
  match get_buffers_size w h (image_format_of pf CsRgb n) strides out T64 (Mem [] []) with
  | Ok (Success, l) _ => inl (Some l)
  | Ok (Err e, _) _ => inr e
  | Fault _ => inl None
  end.
Definition one_plane : list (Z * Z) := [(4, 0); (4, 0); (3, 0); (4, 0); (3, 0); (3, 0); (2, 0); (3, 1); (3, 1)].
Definition per_plane : list (list (Z * Z)) :=
  [[(4, 0)]; [(4, 0)]; [(3, 0)]; [(4, 0)]; [(3, 0)]; [(1, 0); (1, 0); (1, 0)]; [(1, 0); (1, 1); (1, 1)]; [(1, 0); (1, 2); (1, 2)]; [(1, 0); (1, 1)]].
Definition size_err (w h : Z) (pf : pixel_format) (n : Z) (min : Z) : bool :=
  let bad := (min <=? pf_u32 pf) || not_valid pf n 4098 258 in
  match size_is w h pf n None [0; 0; 0] with
  | inl (Some _) => negb bad | inr InvalidValue => bad | _ => false end.
Definition sizes_test (n : Z) (pf : pixel_format) : bool :=
  let w := 4098 in let h := 258 in let k := Z.to_nat (pf_u32 pf) in
  size_err 1 h pf n (pf_u32 I422) && size_err w 1 pf n (pf_u32 I420) &&
  match size_is w h pf n None [0; 0; 0] with
  | inr InvalidValue => not_valid pf n w h
  | inl (Some l) => negb (not_valid pf n w h) &&
      (match size_is w h pf n None [] with inr NotEnoughData => true | _ => false end) &&
      (if n =? 1 then let '(m, s) := nth k one_plane (0, 0) in nth 0 l 0 =? Z.shiftr (w * h * m) s
       else
         let e := map (fun '(m, s) => Z.shiftr (w * h * m) s) (firstn (Z.to_nat n) (nth k per_plane [])) in
         let strides := map (fun i => let '(m, _) := nth i (nth k per_plane []) (0, 0) in
            Z.shiftr (w * m) (match pf with I422 | I420 => if (0 <? Z.of_nat i) then 1 else 0 | _ => 0 end)) (seq 0 (Z.to_nat n)) in
         same [firstn (Z.to_nat n) l] [e] &&
         match size_is w h pf n (Some strides) l with inl (Some l2) => same [firstn (Z.to_nat n) l2] [e] | _ => false end)
  | _ => false
  end.

(** ** Runs *)

Example repo_sizes : forallb (fun n => forallb (sizes_test n) pixel_formats) [0; 1; 2; 3; 4] = true.
Proof. vm_compute. reflexivity. Qed.

Example repo_reorder_errors : forallb (fun s => forallb (fun '(a, b) => forallb (rgb_errors s 33 1 a b) [0; 1; 2; 3])
  [(Rgb, Bgra); (Bgra, Rgb); (Bgr, Rgb)]) sets = true.
Proof. vm_compute. reflexivity. Qed.

Definition wh (pf : pixel_format) : Z * Z := match pf with I444 => (33, 3) | _ => (34, 2) end.

Example repo_forward_errors : forallb (fun d => forallb (fun p => forallb (fun n => forallb (fun a => forallb
  (fwd_errors X86 (fst (wh d)) (snd (wh d)) d p n a) [CsRgb; Bt709FR]) [CsRgb; Bt601]) [0; 1; 2; 3]) [Argb; Rgb; Bgr; I420])
  [Nv12; I420; I444] = true.
Proof. vm_compute. reflexivity. Qed.

Example repo_backward_errors : forallb (fun s => forallb (fun p => forallb (fun n => forallb (fun a => forallb
  (bwd_errors X86 (fst (wh s)) (snd (wh s)) s p n a) [CsRgb; Bt601]) [CsRgb; Bt709]) [0; 1; 2; 3]) [Argb; Bgra; Rgb; Rgba; I422])
  [Nv12; I420; I444] = true.
Proof. vm_compute. reflexivity. Qed.

Example repo_rgb_to_yuv : forallb (fun cs => forallb (fun s => forallb (fun '(d, p) => rgb_to_yuv_test X86 8 8 s d cs p (1, 1, 1, 1))
  [(I444, 3); (I420, 3); (Nv12, 1); (Nv12, 2)]) [Argb; Bgra; Bgr]) spaces = true.
Proof. vm_compute. reflexivity. Qed.
Example repo_rgb_to_yuv_sets : forallb (fun set => forallb (fun '(d, p) => rgb_to_yuv_test set 8 8 Bgra d Bt601 p (0, 0, 0, 0))
  [(I444, 3); (I420, 3); (Nv12, 1)]) [Sse2; Neon] = true.
Proof. vm_compute. reflexivity. Qed.

Example repo_yuv_to_rgb : forallb (fun cs => forallb (fun '(s, p, d) => yuv_to_rgb_test X86 16 2 s d cs p (1, 2, 3, 1))
  [(I444, 3, Bgra); (I420, 3, Rgba); (Nv12, 1, Rgb); (Nv12, 2, Bgra)]) spaces = true.
Proof. vm_compute. reflexivity. Qed.
Example repo_yuv_to_rgb_sets : forallb (fun set => forallb (fun '(s, p, d) => yuv_to_rgb_test set 34 2 s d Bt601 p (0, 0, 0, 0))
  [(I444, 3, Bgra); (I420, 3, Rgba); (Nv12, 1, Rgb); (Nv12, 2, Bgra)]) [Sse2; Avx2; Neon] = true.
Proof. vm_compute. reflexivity. Qed.

Example repo_reorder : forallb (fun set => forallb (fun '(s, d) => rgb_test set 37 2 s d 1 2)
  [(Bgr, Rgb); (Bgra, Rgb); (Rgb, Bgra)]) sets = true.
Proof. vm_compute. reflexivity. Qed.
