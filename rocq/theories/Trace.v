(** Model of the accesses a call makes to the bytes of the buffers, one after the other.

    The same programs as everywhere else (lib.rs:891-972, lib.rs:1075-1179), with every read and
    write recorded instead of only their result. An access of several bytes is recorded byte by byte.
    The access that faults is recorded too. *)
From Coq Require Import ZArith List Bool.
Import ListNotations.
From Verif Require Import Base Fmt Wrappers Spec ApiSpec Lib Sets Api.
Open Scope Z_scope.

Inductive access :=
| Reads (p : plane) (a : Z)
| Writes (p : plane) (a v : Z).

(** [run], with the accesses in the order in which they are made. *)
Fixpoint traced {A} (c : M A) (T : target) (m : mem) {struct c} : list access * res A :=
  match c with
  | Ret a => ([], Ok a m)
  | Raise f => ([], Fault f)
  | Bind c k =>
      match traced c T m with
      | (l, Ok a m') => let (l', r) := traced (k a) T m' in (l ++ l', r)
      | (l, Fault f) => (l, Fault f)
      end
  | Ask k => traced (k T) T m
  | Usize r k =>
      if (0 <=? r) && (r <? usz T) then traced (k r) T m
      else if checked T then ([], Fault Overflow)
      else traced (k (r mod usz T)) T m
  | Int32 r k =>
      if (- 2 ^ 31 <=? r) && (r <? 2 ^ 31) then traced (k r) T m
      else if checked T then ([], Fault Overflow)
      else traced (k (wrap_i32 r)) T m
  | Read s i k =>
      let b := plane_bytes m (s_plane s) in
      let a := s_off s + i in
      let (l, r) :=
        if (0 <=? i) && (i <? s_len s) && (0 <=? a) && (a <? zlen b)
        then traced (k (nth (Z.to_nat a) b 0)) T m
        else ([], Fault OOB_read) in
      (Reads (s_plane s) a :: l, r)
  | Write s i v k =>
      let a := s_off s + i in
      let (l, r) :=
        match s_plane s with
        | Src _ => ([], Fault OOB_write)
        | Dst n =>
            let b := nth n (dsts m) [] in
            if (0 <=? i) && (i <? s_len s) && (0 <=? a) && (a <? zlen b)
            then traced (k tt) T (Mem (srcs m) (upd (dsts m) n (upd b (Z.to_nat a) v)))
            else ([], Fault OOB_write)
        end in
      (Writes (s_plane s) a v :: l, r)
  end.

(** The accesses of a call of [convert_image] (lib.rs:891-972), with the arguments of [convert]. *)
Definition accesses (impl : conv -> converter) (T : target) (w h : Z) (src dst : image)
           (sbufs dbufs : list (list Z)) : list access :=
  fst (traced (convert_image impl w h
    (format_of src) (option_map arr_of (i_strides src)) (arr_of (rust_slices Src sbufs))
    (format_of dst) (option_map arr_of (i_strides dst)) (arr_of (rust_slices Dst dbufs)))
    T (Mem sbufs dbufs)).

(** The accesses of a call of [dcp_convert_image] (lib.rs:1075-1179), with the arguments of
    [c_convert]. *)
Definition c_accesses (impl : conv -> converter) (T : target) (w h : Z) (src dst : image)
           (sbufs dbufs : list (list Z)) (error : option (option error_kind)) : list access :=
  fst (traced (dcp_convert_image impl w h
    (Some (format_of src)) (i_strides src) (Some (repeat true (length sbufs)))
    (Some (format_of dst)) (i_strides dst) (Some (repeat true (length dbufs)))
    error) T (Mem sbufs dbufs)).
