(** Machine model shared by every other file: machine integers, memory,
    slices, and the state + fault monad in which the Rust code is written.

    Nothing in this file models a particular function of the repository; it
    models the part of the Rust semantics the repository relies on. *)
From Coq Require Import ZArith List Bool.
Import ListNotations.
Open Scope Z_scope.

(** ** Lists indexed by [Z] *)

Definition zlen {A} (l : list A) : Z := Z.of_nat (length l).

(** [0; 1; ...; n-1] shifted by [a]. *)
Fixpoint zseq (a : Z) (n : nat) : list Z :=
  match n with
  | O => []
  | S n' => a :: zseq (a + 1) n'
  end.

Definition zrange (a b : Z) : list Z := zseq a (Z.to_nat (b - a)).

Fixpoint upd {A} (l : list A) (n : nat) (v : A) : list A :=
  match l, n with
  | [], _ => []
  | _ :: t, O => v :: t
  | x :: t, S n' => x :: upd t n' v
  end.

(** ** Compilation target

    [usz] is the modulus of [usize] (2^64 on 64-bit targets, 2^32 on 32-bit
    ones); [checked] tells whether arithmetic overflow panics (debug builds,
    [overflow-checks = on]) or wraps (release builds); [big] whether words are
    stored with their most significant byte first. *)
Record target := Target { usz : Z; checked : bool; big : bool }.

Definition T64_debug := Target (2 ^ 64) true false.
Definition T64_release := Target (2 ^ 64) false false.
Definition T32_debug := Target (2 ^ 32) true false.
Definition T32_release := Target (2 ^ 32) false false.

(** The targets the theorems are about: little endian, of either width. *)
Definition is_target64 (T : target) : Prop := usz T = 2 ^ 64 /\ big T = false.
Definition is_target32 (T : target) : Prop := usz T = 2 ^ 32 /\ big T = false.
Definition is_target (T : target) : Prop := is_target64 T \/ is_target32 T.

(** [usize::MAX] and [isize::MAX]. *)
Definition usize_max (T : target) : Z := usz T - 1.
Definition isize_max (T : target) : Z := usz T / 2 - 1.

(** ** Faults: executions that do not return normally *)
Inductive fault :=
| OOB_read        (* a raw pointer is read outside of its slice: undefined behaviour *)
| OOB_write       (* a raw pointer is written outside of its slice: undefined behaviour *)
| Overflow        (* arithmetic overflow panic (checked targets only) *)
| Panic_slice     (* slice range out of bounds panic *)
| Panic_index.    (* index out of bounds panic *)

(** ** Memory

    The source buffers and the destination buffers of one call.  Bytes are
    integers in 0..255. Rust's aliasing rules (shared [src_buffers], mutable
    [dst_buffers]) guarantee that all of them are disjoint. *)
Record mem := Mem { srcs : list (list Z); dsts : list (list Z) }.

Inductive plane := Src (n : nat) | Dst (n : nat).

Definition plane_bytes (m : mem) (p : plane) : list Z :=
  match p with
  | Src n => nth n (srcs m) []
  | Dst n => nth n (dsts m) []
  end.

(** A Rust slice: a view of [s_len] bytes of a buffer, starting at [s_off]. *)
Record slice := Slice { s_plane : plane; s_off : Z; s_len : Z }.

(** ** Results *)
Inductive res (A : Type) :=
| Ok (a : A) (m : mem)
| Fault (f : fault).
Arguments Ok {A} a m.
Arguments Fault {A} f.

(** ** The monad

    Programs are trees of primitive steps; [run] says what they do to the memory of one call when
    nothing else runs. *)
Inductive M (A : Type) : Type :=
| Ret (a : A)
| Raise (f : fault)                                (* panic or undefined behaviour *)
| Bind (B : Type) (c : M B) (k : B -> M A)         (* [c], then [k] with its result *)
| Ask (k : target -> M A)                          (* depends on the compilation target *)
| Usize (r : Z) (k : Z -> M A)                     (* [r] is the exact result of usize arithmetic *)
| Int32 (r : Z) (k : Z -> M A)                     (* the same for i32 *)
| Read (s : slice) (i : Z) (k : Z -> M A)          (* read byte [i] of a slice *)
| Write (s : slice) (i v : Z) (k : unit -> M A).   (* write byte [i] of a slice *)
Arguments Ret {A} a.
Arguments Raise {A} f.
Arguments Bind {A B} c k.
Arguments Ask {A} k.
Arguments Usize {A} r k.
Arguments Int32 {A} r k.
Arguments Read {A} s i k.
Arguments Write {A} s i v k.

Definition ret {A} (a : A) : M A := Ret a.
Definition bind {A B} (c : M A) (k : A -> M B) : M B := Bind c k.
Definition raise {A} (f : fault) : M A := Raise f.

Notation "x <- c ;; k" := (bind c (fun x => k))
  (at level 61, c at next level, right associativity).
Notation "' p <- c ;; k" := (bind c (fun x => match x with p => k end))
  (at level 61, p pattern, c at next level, right associativity).
Notation "c ;; k" := (bind c (fun _ => k))
  (at level 61, right associativity).

(** [a || b] with short-circuit evaluation *)
Definition orM (a b : M bool) : M bool :=
  x <- a ;; if x then ret true else b.

(** ** usize arithmetic *)
Definition ures (r : Z) : M Z := Usize r Ret.
Definition uadd (a b : Z) : M Z := ures (a + b).
Definition usub (a b : Z) : M Z := ures (a - b).
Definition umul (a b : Z) : M Z := ures (a * b).

(** ** i32 arithmetic (two's complement) *)
Definition wrap_i32 (r : Z) : Z := (r + 2 ^ 31) mod 2 ^ 32 - 2 ^ 31.
Definition ires (r : Z) : M Z := Int32 r Ret.
Definition iadd (a b : Z) : M Z := ires (a + b).
Definition isub (a b : Z) : M Z := ires (a - b).
Definition imul (a b : Z) : M Z := ires (a * b).
Definition ineg (a : Z) : M Z := ires (- a).

(** [x as u8], [x as u32], [x as u64] (truncation) *)
Definition u8 (x : Z) : Z := x mod 256.
Definition u32 (x : Z) : Z := x mod 2 ^ 32.
Definition u64 (x : Z) : Z := x mod 2 ^ 64.

(** ** Memory accesses through a pointer obtained from a slice

    [ld s i] models [*s.as_ptr().add(i)]. The access has to stay inside the
    slice (and the slice inside the buffer it was made from). Creating an
    out-of-range pointer without accessing it is not treated as a fault. *)
Definition ld (s : slice) (i : Z) : M Z := Read s i Ret.
Definition st (s : slice) (i : Z) (v : Z) : M unit := Write s i v Ret.

(** What a program does on its own. *)
Fixpoint run {A} (c : M A) (T : target) (m : mem) {struct c} : res A :=
  match c with
  | Ret a => Ok a m
  | Raise f => Fault f
  | Bind c k =>
      match run c T m with
      | Ok a m' => run (k a) T m'
      | Fault f => Fault f
      end
  | Ask k => run (k T) T m
  | Usize r k =>
      if (0 <=? r) && (r <? usz T) then run (k r) T m
      else if checked T then Fault Overflow
      else run (k (r mod usz T)) T m
  | Int32 r k =>
      if (- 2 ^ 31 <=? r) && (r <? 2 ^ 31) then run (k r) T m
      else if checked T then Fault Overflow
      else run (k (wrap_i32 r)) T m
  | Read s i k =>
      let b := plane_bytes m (s_plane s) in
      let a := s_off s + i in
      if (0 <=? i) && (i <? s_len s) && (0 <=? a) && (a <? zlen b)
      then run (k (nth (Z.to_nat a) b 0)) T m
      else Fault OOB_read
  | Write s i v k =>
      match s_plane s with
      | Src _ => Fault OOB_write
      | Dst n =>
          let b := nth n (dsts m) [] in
          let a := s_off s + i in
          if (0 <=? i) && (i <? s_len s) && (0 <=? a) && (a <? zlen b)
          then run (k tt) T (Mem (srcs m) (upd (dsts m) n (upd b (Z.to_nat a) v)))
          else Fault OOB_write
      end
  end.
Coercion run : M >-> Funclass.

(** Multi-byte unaligned loads and stores. *)
Fixpoint ldn (s : slice) (i : Z) (n : nat) : M (list Z) :=
  match n with
  | O => ret []
  | S n' => x <- ld s i ;; xs <- ldn s (i + 1) n' ;; ret (x :: xs)
  end.

Fixpoint stn (s : slice) (i : Z) (bs : list Z) : M unit :=
  match bs with
  | [] => ret tt
  | b :: bs' => st s i b ;; stn s (i + 1) bs'
  end.

(** [&s[i..]] *)
Definition slice_from (s : slice) (i : Z) : M slice :=
  if (0 <=? i) && (i <=? s_len s)
  then ret (Slice (s_plane s) (s_off s + i) (s_len s - i))
  else raise Panic_slice.

(** [s.split_at(i)] *)
Definition split_at (s : slice) (i : Z) : M (slice * slice) :=
  if (0 <=? i) && (i <=? s_len s)
  then ret (Slice (s_plane s) (s_off s) i,
            Slice (s_plane s) (s_off s + i) (s_len s - i))
  else raise Panic_slice.

(** [l[i]] *)
Definition index {A} (l : list A) (i : Z) : M A :=
  if (0 <=? i) && (i <? zlen l) then
    match nth_error l (Z.to_nat i) with
    | Some a => ret a
    | None => raise Panic_index
    end
  else raise Panic_index.

(** Arrays of strides and arrays of buffers passed by the caller.  [alen] is
    the length the callee believes in, [adata] what is really there: they agree
    for Rust callers; the C API turns raw pointers into slices of a made-up
    length.  Reading past the real contents is undefined behaviour. *)
Record arr (A : Type) := Arr { alen : Z; adata : list A }.
Arguments Arr {A} alen adata.
Arguments alen {A} a.
Arguments adata {A} a.

(** The array a Rust caller passes: the length is the real one. *)
Definition arr_of {A} (l : list A) : arr A := Arr (zlen l) l.

(** [a[i]] *)
Definition aidx {A} (a : arr A) (i : Z) : M A :=
  if (0 <=? i) && (i <? alen a) then
    match nth_error (adata a) (Z.to_nat i) with
    | Some x => ret x
    | None => raise OOB_read
    end
  else raise Panic_index.

(** ** Loops *)

(** [for i in a..a+n { f(i) }] *)
Fixpoint for_from (n : nat) (i : Z) (f : Z -> M unit) : M unit :=
  match n with
  | O => ret tt
  | S n' => f i ;; for_from n' (i + 1) f
  end.

(** [for i in 0..n { f(i) }] *)
Definition for_ (n : Z) (f : Z -> M unit) : M unit := for_from (Z.to_nat n) 0 f.

(** [n] iterations of a loop body with carried local variables [s]. *)
Fixpoint loop {S} (n : nat) (s : S) (f : S -> M S) : M S :=
  match n with
  | O => ret s
  | Datatypes.S n' => s' <- f s ;; loop n' s' f
  end.

(** ** Unsigned words and bytes, little endian *)
Fixpoint of_bytes (bs : list Z) : Z :=
  match bs with
  | [] => 0
  | b :: bs' => b + 256 * of_bytes bs'
  end.

Fixpoint to_bytes (n : nat) (x : Z) : list Z :=
  match n with
  | O => []
  | S n' => x mod 256 :: to_bytes n' (x / 256)
  end.

(** The bytes of a word in the order of the target, given or wanted least significant first. *)
Definition in_order (l : list Z) : M (list Z) := Ask (fun T => Ret (if big T then rev l else l)).

(** Unaligned loads and stores of words ([read_unaligned], [write_unaligned]). *)
Definition ld_word (n : nat) (s : slice) (i : Z) : M Z :=
  bs <- ldn s i n ;; bs <- in_order bs ;; ret (of_bytes bs).
Definition st_word (n : nat) (s : slice) (i v : Z) : M unit :=
  bs <- in_order (to_bytes n v) ;; stn s i bs.
Definition ld_u32 : slice -> Z -> M Z := ld_word 4.
Definition ld_u64 : slice -> Z -> M Z := ld_word 8.
Definition st_u32 : slice -> Z -> Z -> M unit := st_word 4.
Definition st_u64 : slice -> Z -> Z -> M unit := st_word 8.

(** [x.swap_bytes()] on u32 / u64 *)
Definition swap_bytes32 (x : Z) : Z := of_bytes (rev (to_bytes 4 x)).
Definition swap_bytes64 (x : Z) : Z := of_bytes (rev (to_bytes 8 x)).
