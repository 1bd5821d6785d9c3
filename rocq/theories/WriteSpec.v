(** Vocabulary for how often the bytes of the destination are written. *)
From Coq Require Import ZArith List Bool.
Import ListNotations.
From Verif Require Import Base Fmt CpuInfo Spec ApiSpec Trace.
Open Scope Z_scope.

(** How many of the accesses write position [a] of destination buffer [n]. *)
Definition times_written (l : list access) (n : nat) (a : Z) : nat :=
  length (filter (fun x => match x with Writes (Dst k) b _ => (k =? n)%nat && (b =? a) | _ => false end) l).

(** How many of the accesses write a byte. *)
Definition bytes_written (l : list access) : Z :=
  Z.of_nat (length (filter (fun x => match x with Writes _ _ _ => true | Reads _ _ => false end) l)).

(** How many bytes the image has, without those between its rows. *)
Definition image_bytes (im : image) (w h : Z) : Z :=
  fold_right (fun g n => g_rows g * g_row g + n) 0 (image_planes im w h).

(** The one conversion that writes some bytes more than once: NV12 to RGB with AVX2. Sixteen pixels
    are 48 bytes, stored as 32 bytes at 16 and 32 bytes at 0 (avx2.rs:318-319); the bytes in both have the same value. *)
Definition overlapping (set : instruction_set) (src dst : image) : Prop :=
  set = Avx2 /\ i_pf src = Nv12 /\ i_pf dst = Rgb.
