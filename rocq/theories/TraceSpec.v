(** Vocabulary for the accesses of a call. *)
From Coq Require Import ZArith List Bool.
Import ListNotations.
From Verif Require Import Base Fmt Wrappers CpuInfo Spec ApiSpec AcceptSpec Lib Sets Api Trace.
Open Scope Z_scope.

(** The value written last at position [a] of destination buffer [n], if any. *)
Fixpoint last_written (l : list access) (n : nat) (a : Z) : option Z :=
  match l with
  | [] => None
  | x :: l' =>
      match last_written l' n a with
      | Some v => Some v
      | None =>
          match x with
          | Writes (Dst k) b v => if (k =? n)%nat && (b =? a) then Some v else None
          | _ => None
          end
      end
  end.

(** A call of the C function as [C47_c_converts] has it: it converts the image. *)
Definition c_call (set : instruction_set) (T : target) (w h : Z) (src dst : image) (sb db : list (list Z)) : Prop :=
  is_target T /\ well_formed (usz T) w h src dst sb db /\ 0 < w /\ 0 < h /\
  valid_image src w h /\ valid_image dst w h /\ supported (i_pf src) (i_pf dst) = true /\
  enough_planes src sb /\ enough_planes dst db /\
  laid_out src w h sb /\ laid_out dst w h db /\ room set src dst w h sb /\
  stride_in (fun _ => usz T / 2 - 1) src w h /\ stride_in (fun _ => usz T / 2 - 1) dst w h.
