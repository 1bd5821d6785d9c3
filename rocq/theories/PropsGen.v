(** Properties of the script that generates the constants and the reference data of the tests.
    Each theorem is followed by its assumptions and by a concrete case. *)
From Coq Require Import ZArith List Bool Lia.
Import ListNotations.
From Verif Require Import Base Fmt Common Exec CpuInfo Lib Sets Spec SimdSpec SetSpec ApiSpec Api PropsConvert
  Itu PixelSpec PropsPixel GenSpec GenFacts.
From Verif Require GenWeights.
Import GenWeights.
Open Scope Z_scope.

(** C53: for the limited range spaces, the script prints the constants of common.rs. *)
Theorem C53_limited : script M601 false = constants C601 /\ script M709 false = constants C709.
Proof. exact c53_limited. Qed.
Print Assumptions C53_limited.

(** C53: for the full range spaces as well. There the script corrects one of two weights, after
    measuring in doubles which choice has the smaller error over all 2^24 colours. *)
Theorem C53_full : script M601 true = constants C601FR /\ script M709 true = constants C709FR.
Proof. exact c53_full. Qed.
Print Assumptions C53_full.

(** Both corrections are considered: the rounded weights add up to -32768. *)
Example C53_corrected :
  map (fun m => let f := forward_coefs m true in (fix16 (br f), fix16 (bg f))) [M601; M709] = [(-11058, -21710); (-7509, -25259)] /\
  map (fun c => (YR c, YG c)) [C601FR; C709FR] = [(-11058, -21709); (-7508, -25259)].
Proof. split; vm_compute; reflexivity. Qed.

(** The middle of the chroma codes is 128 in the limited range and 127 in the full range. *)
Example C53_middle : C_HALF false = 128 /\ C_HALF true = 127.
Proof. split; reflexivity. Qed.

(** C53: the reference data that the script computes from any table of pixels are the samples
    of the converted image, for all formats, sizes and colour spaces. NEON rounds exact halves of
    chroma upwards (C25): on NEON, for tables without them. *)
Theorem C53_tables : forall set T w h src dst sb db m' rows,
  successful_call (converters set) T w h src dst sb db m' ->
  is_rgb (i_pf src) = true -> is_rgb (i_pf dst) = false ->
  table_size rows w h -> table_of rows w h (pixel src w h sb) ->
  (set = Neon -> no_ties (i_pf dst) (i_cs dst) w h (pixel src w h sb)) ->
  let p := printed_for (i_cs dst) in
  forall x y, 0 <= x < w -> 0 <= y < h ->
  let i := Z.to_nat x in let row := nth (Z.to_nat y) rows [] in
  let '(l, cb, cr) := pixel dst w h (dsts m') x y in
  l = nth i (y_row p (negb (limited (i_cs dst))) row) 0 /\
  match i_pf dst with
  | I444 => cb = nth i (u_row p row) 0 /\ cr = nth i (v_row p row) 0
  | _ => cb = u2_at p rows (Z.to_nat (y / 2)) (Z.to_nat (x / 2)) /\ cr = v2_at p rows (Z.to_nat (y / 2)) (Z.to_nat (x / 2))
  end.
Proof. exact c53_tables. Qed.
Print Assumptions C53_tables.

(** C53: the script's own table has none, so its reference data are right for every instruction
    set. *)
Theorem C53_reference : forall set T src dst sb db m',
  successful_call (converters set) T 8 8 src dst sb db m' ->
  is_rgb (i_pf src) = true -> is_rgb (i_pf dst) = false -> table_of RGB_SRC 8 8 (pixel src 8 8 sb) ->
  let p := printed_for (i_cs dst) in
  forall x y, 0 <= x < 8 -> 0 <= y < 8 ->
  let i := Z.to_nat x in let row := nth (Z.to_nat y) RGB_SRC [] in
  let '(l, cb, cr) := pixel dst 8 8 (dsts m') x y in
  l = nth i (y_row p (negb (limited (i_cs dst))) row) 0 /\
  match i_pf dst with
  | I444 => cb = nth i (u_row p row) 0 /\ cr = nth i (v_row p row) 0
  | _ => cb = u2_at p RGB_SRC (Z.to_nat (y / 2)) (Z.to_nat (x / 2)) /\ cr = v2_at p RGB_SRC (Z.to_nat (y / 2)) (Z.to_nat (x / 2))
  end.
Proof. exact c53_reference. Qed.
Print Assumptions C53_reference.

(** The first pixels of RGB_SRC (genweights.py:31-112) and the reference data of
    tests/conversions.rs: 74, 78, 93, 171 and 96, 171. *)
Definition ex_rows : list (list rgba) := [[(161, 24, 44, 58); (35, 95, 51, 205)]; [(251, 19, 32, 170); (235, 183, 25, 77)]].
Definition ex_rows_bgra : list Z := [44; 24; 161; 58; 51; 95; 35; 205; 32; 19; 251; 170; 25; 183; 235; 77].
Definition ex_i420_601 : image := Image I420 Bt601 3 None.
Example ex_rows_call : successful_call (converters X86) T64_debug 2 2 ex_bgra ex_i420_601 [ex_rows_bgra] (zeros [4; 1; 1])
  (Mem [ex_rows_bgra] [[74; 78; 93; 171]; [96]; [171]]).
Proof. check_success. Qed.
Example ex_rows_table : table_size ex_rows 2 2 /\ table_of ex_rows 2 2 (pixel ex_bgra 2 2 [ex_rows_bgra]).
Proof.
  split; [split; [reflexivity|repeat constructor]|]. intros x y Hx Hy.
  assert (Ex : x = 0 \/ x = 1) by lia. assert (Ey : y = 0 \/ y = 1) by lia.
  destruct Ex, Ey; subst; reflexivity.
Qed.
Example ex_rows_data : map (y_row (printed_for Bt601) false) ex_rows = [[74; 78]; [93; 171]] /\
  u2_at (printed_for Bt601) ex_rows 0 0 = 96 /\ v2_at (printed_for Bt601) ex_rows 0 0 = 171.
Proof. repeat split; reflexivity. Qed.

(** The whole table, as BGRA bytes. *)
Definition ex_src_bgra : list Z := concat (map (fun '(r, g, b, a) => [b; g; r; a]) (concat RGB_SRC)).
Example C53_reference_example : exists m',
  successful_call (converters Neon) T64_debug 8 8 ex_bgra ex_i420_601 [ex_src_bgra] (zeros [64; 16; 16]) m' /\
  table_of RGB_SRC 8 8 (pixel ex_bgra 8 8 [ex_src_bgra]).
Proof.
  eexists. split; [check_success|]. intros x y Hx Hy.
  assert (I : In x (zrange 0 8) /\ In y (zrange 0 8)) by (split; apply In_zrange; lia). destruct I as [Ix Iy].
  cbn in Ix, Iy. repeat (destruct Ix as [<-|Ix]; [repeat (destruct Iy as [<-|Iy]; [vm_compute; reflexivity|]); contradiction|]). contradiction.
Qed.
