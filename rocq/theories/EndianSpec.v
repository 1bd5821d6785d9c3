(** What the byte order of the machine may change. *)
From Coq Require Import ZArith List Bool.
Import ListNotations.
From Verif Require Import Base Fmt Lib Spec ApiSpec Api.
Open Scope Z_scope.

(** Two targets that can only differ in the byte order of words: the same usize and the same
    overflow checks. *)
Definition alike (T T' : target) : Prop := usz T = usz T' /\ checked T = checked T'.

(** The same target with the least, or the most significant byte first. *)
Definition little (T : target) : target := Target (usz T) (checked T) false.
Definition big_endian (T : target) : target := Target (usz T) (checked T) true.

(** Conversions whose code never touches a word as a whole: all those from or to YCbCr, and
    the ones to RGB of images narrower than 8 pixels. *)
Definition byte_wise (src dst : image) (w : Z) : Prop :=
  is_rgb (i_pf src) = false \/ is_rgb (i_pf dst) = false \/ (i_pf dst = Rgb /\ 0 <= w < 8).

(** The same fault, or the same answer, with the same source buffers and destination buffers
    of the same lengths. *)
Definition same_outcome {A} (r r' : res A) : Prop :=
  match r, r' with
  | Ok o m, Ok o' m' => o = o' /\ srcs m = srcs m' /\ map (@length Z) (dsts m) = map (@length Z) (dsts m')
  | Fault f, Fault g => f = g
  | _, _ => False
  end.
