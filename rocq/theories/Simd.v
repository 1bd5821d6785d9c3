(** The x86 vector instructions used by sse2.rs and avx2.rs, after the Intel intrinsics
    guide.  Nothing in this file models a function of the repository.

    A register is the list of its bytes, lowest address first: 16 bytes for [__m128i],
    32 for [__m256i].  An instruction that works on 16 or 32-bit elements goes through
    [w16] / [w32] (bytes to unsigned elements) and [b16] / [b32] (elements to bytes,
    keeping the low bits only).  Element-wise instructions are the same for both sizes;
    those that shuffle bytes inside of each 128-bit half are defined on 16 bytes and
    extended by [halves1] / [halves2]. *)
From Coq Require Import ZArith List Bool.
Import ListNotations.
From Verif Require Import Base.
Open Scope Z_scope.

Definition reg := list Z.

(** ** Elements *)
Fixpoint w16 (x : reg) : list Z :=
  match x with
  | a :: b :: t => a + 256 * b :: w16 t
  | _ => []
  end.
Fixpoint w32 (x : reg) : list Z :=
  match x with
  | a :: b :: c :: d :: t => a + 256 * (b + 256 * (c + 256 * d)) :: w32 t
  | _ => []
  end.
Definition b16 (l : list Z) : reg := flat_map (to_bytes 2) l.
Definition b32 (l : list Z) : reg := flat_map (to_bytes 4) l.

(** The signed value of an unsigned element. *)
Definition i16 (x : Z) : Z := (x + 32768) mod 65536 - 32768.
Definition i32 (x : Z) : Z := (x + 2147483648) mod 4294967296 - 2147483648.

(** Saturation. *)
Definition sat (lo hi x : Z) : Z := if x <? lo then lo else if hi <? x then hi else x.

Fixpoint map2 (f : Z -> Z -> Z) (x y : list Z) : list Z :=
  match x, y with
  | a :: x', b :: y' => f a b :: map2 f x' y'
  | _, _ => []
  end.

(** ** Constants *)
(** [_mm_setzero_si128], [_mm256_setzero_si256] *)
Definition setzero (bytes : nat) : reg := repeat 0 bytes.
(** [_mm_set1_epi16], [_mm256_set1_epi16]: [n] elements *)
Definition set1_epi16 (n : nat) (a : Z) : reg := b16 (repeat a n).
(** [_mm_set1_epi32], [_mm256_set1_epi32]: [n] elements *)
Definition set1_epi32 (n : nat) (a : Z) : reg := b32 (repeat a n).
(** [_mm_set_epi32], [_mm256_set_epi32]: the last argument is the lowest element *)
Definition set_epi32 (l : list Z) : reg := b32 (rev l).
(** [_mm256_setr_epi32]: the first argument is the lowest element *)
Definition setr_epi32 (l : list Z) : reg := b32 l.
(** [_mm256_setr_epi8] *)
Definition setr_epi8 (l : list Z) : reg := map (fun a => a mod 256) l.

(** ** Element-wise arithmetic *)
Definition add_epi16 (x y : reg) : reg := b16 (map2 Z.add (w16 x) (w16 y)).
Definition sub_epi16 (x y : reg) : reg := b16 (map2 Z.sub (w16 x) (w16 y)).
Definition add_epi32 (x y : reg) : reg := b32 (map2 Z.add (w32 x) (w32 y)).
(** [_mm_mulhi_epu16]: high half of the unsigned product *)
Definition mulhi_epu16 (x y : reg) : reg :=
  b16 (map2 (fun a b => a * b / 65536) (w16 x) (w16 y)).
(** [_mm_madd_epi16]: sums of adjacent signed products *)
Fixpoint pair_sums (l : list Z) : list Z :=
  match l with
  | a :: b :: t => a + b :: pair_sums t
  | _ => []
  end.
Definition madd_epi16 (x y : reg) : reg :=
  b32 (pair_sums (map2 (fun a b => i16 a * i16 b) (w16 x) (w16 y))).

(** ** Shifts *)
Definition slli_epi16 (x : reg) (n : Z) : reg := b16 (map (fun a => a * 2 ^ n) (w16 x)).
Definition srli_epi16 (x : reg) (n : Z) : reg := b16 (map (fun a => a / 2 ^ n) (w16 x)).
Definition srai_epi16 (x : reg) (n : Z) : reg := b16 (map (fun a => i16 a / 2 ^ n) (w16 x)).
Definition slli_epi32 (x : reg) (n : Z) : reg := b32 (map (fun a => a * 2 ^ n) (w32 x)).
Definition srli_epi32 (x : reg) (n : Z) : reg := b32 (map (fun a => a / 2 ^ n) (w32 x)).
Definition srai_epi32 (x : reg) (n : Z) : reg := b32 (map (fun a => i32 a / 2 ^ n) (w32 x)).

(** ** Bitwise *)
Definition or_si (x y : reg) : reg := map2 Z.lor x y.
Definition and_si (x y : reg) : reg := map2 Z.land x y.
(** [_mm_andnot_si128(x, y)] is [!x & y] *)
Definition andnot_si (x y : reg) : reg := map2 (fun a b => Z.land (255 - a) b) x y.
(** [_mm_cmpeq_epi32] *)
Definition cmpeq_epi32 (x y : reg) : reg :=
  b32 (map2 (fun a b => if a =? b then 4294967295 else 0) (w32 x) (w32 y)).

(** ** Moving bytes, 128 bits *)
(** Element [k] of [n] bytes. *)
Definition elem (n k : nat) (x : reg) : reg := firstn n (skipn (n * k) x).

(** [_mm_unpacklo_epi8/16/32/64]: [n] is the element size in bytes *)
Definition unpacklo (n : nat) (x y : reg) : reg :=
  flat_map (fun k => elem n k x ++ elem n k y) (seq 0 (8 / n)).
(** [_mm_unpackhi_epi8/16] *)
Definition unpackhi (n : nat) (x y : reg) : reg :=
  flat_map (fun k => elem n k x ++ elem n k y) (seq (8 / n) (8 / n)).
(** [_mm_packs_epi32]: signed 32 to signed 16 bits *)
Definition packs_epi32 (x y : reg) : reg :=
  b16 (map (fun a => sat (-32768) 32767 (i32 a)) (w32 x ++ w32 y)).
(** [_mm_packus_epi16]: signed 16 to unsigned 8 bits *)
Definition packus_epi16 (x y : reg) : reg :=
  map (fun a => sat 0 255 (i16 a)) (w16 x ++ w16 y).
(** [_mm_slli_si128], [_mm_srli_si128]: shifts by bytes *)
Definition slli_si128 (x : reg) (n : nat) : reg := firstn 16 (repeat 0 n ++ x).
Definition srli_si128 (x : reg) (n : nat) : reg := skipn n x ++ repeat 0 n.
(** Selector [k] of an immediate made by [mm_shuffle(z, y, x, w)] *)
Definition sel (imm : Z) (k : Z) : nat := Z.to_nat ((imm / 4 ^ k) mod 4).
(** [_mm_shuffle_epi32] *)
Definition shuffle_epi32 (x : reg) (imm : Z) : reg :=
  flat_map (fun k => elem 4 (sel imm k) x) [0; 1; 2; 3].
(** [_mm_shufflelo_epi16] *)
Definition shufflelo_epi16 (x : reg) (imm : Z) : reg :=
  flat_map (fun k => elem 2 (sel imm k) x) [0; 1; 2; 3] ++ skipn 8 x.
(** [_mm_shufflehi_epi16] *)
Definition shufflehi_epi16 (x : reg) (imm : Z) : reg :=
  firstn 8 x ++ flat_map (fun k => elem 2 (4 + sel imm k) x) [0; 1; 2; 3].
(** [_mm_shuffle_epi8] on one 128-bit half *)
Definition shuffle_epi8 (x m : reg) : reg :=
  map (fun k => if 128 <=? k then 0 else nth (Z.to_nat (k mod 16)) x 0) m.

(** ** Moving bytes, 256 bits *)
Definition lo (x : reg) : reg := firstn 16 x.
Definition hi (x : reg) : reg := skipn 16 x.
Definition halves1 (f : reg -> reg) (x : reg) : reg := f (lo x) ++ f (hi x).
Definition halves2 (f : reg -> reg -> reg) (x y : reg) : reg := f (lo x) (lo y) ++ f (hi x) (hi y).

(** [_mm256_permute2x128_si256] with control 0x20 and 0x31 *)
Definition pack_lo_dqword (x y : reg) : reg := lo x ++ lo y.
Definition pack_hi_dqword (x y : reg) : reg := hi x ++ hi y.
(** [_mm256_permutevar8x32_epi32] *)
Definition permutevar8x32 (x idx : reg) : reg :=
  flat_map (fun k => elem 4 (Z.to_nat (k mod 8)) x) (w32 idx).
(** [_mm256_permute4x64_epi64] *)
Definition permute4x64 (x : reg) (imm : Z) : reg :=
  flat_map (fun k => elem 8 (sel imm k) x) [0; 1; 2; 3].
(** [_mm256_blend_epi32] *)
Definition blend_epi32 (x y : reg) (imm : Z) : reg :=
  flat_map (fun k => if Z.testbit imm (Z.of_nat k) then elem 4 k y else elem 4 k x) (seq 0 8).
