(** Vocabulary for the work of a call. *)
From Coq Require Import ZArith List Bool.
Import ListNotations.
From Verif Require Import Base.
Open Scope Z_scope.

(** How many steps a program takes on a target and a memory, up to its end or its fault, the step
    that faults included. A step is a byte read, a byte written, or an operation on machine integers
    that could overflow (usize or i32). What happens between two steps is straight-line code:
    comparisons, shifts, vector registers. *)
Fixpoint steps {A} (c : M A) (T : target) (m : mem) {struct c} : Z :=
  match c with
  | Ret _ => 0
  | Raise _ => 0
  | Bind c k => steps c T m + match run c T m with Ok a m' => steps (k a) T m' | Fault _ => 0 end
  | Ask k => steps (k T) T m
  | Usize r k =>
      1 + (if (0 <=? r) && (r <? usz T) then steps (k r) T m
           else if checked T then 0 else steps (k (r mod usz T)) T m)
  | Int32 r k =>
      1 + (if (- 2 ^ 31 <=? r) && (r <? 2 ^ 31) then steps (k r) T m
           else if checked T then 0 else steps (k (wrap_i32 r)) T m)
  | Read s i k =>
      let b := plane_bytes m (s_plane s) in
      let a := s_off s + i in
      1 + (if (0 <=? i) && (i <? s_len s) && (0 <=? a) && (a <? zlen b)
           then steps (k (nth (Z.to_nat a) b 0)) T m else 0)
  | Write s i v k =>
      1 + match s_plane s with
          | Src _ => 0
          | Dst n =>
              let b := nth n (dsts m) [] in
              let a := s_off s + i in
              if (0 <=? i) && (i <? s_len s) && (0 <=? a) && (a <? zlen b)
              then steps (k tt) T (Mem (srcs m) (upd (dsts m) n (upd b (Z.to_nat a) v))) else 0
          end
  end.
