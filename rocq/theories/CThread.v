(** Model of threads of a C program that call the library at the same time.

    Like Thread.v, for [dcp_convert_image] (lib.rs:1075-1179). A C program hands over addresses only, so
    nothing obliges it to give the calls memory of their own: the memory behind the pointers of two
    calls may overlap. One step is one arithmetic operation or one access to one byte.

    Simplified: one call per thread; all threads use the same instruction set from the start (C44);
    the arrays of strides and of pointers and the error location belong to the thread, and only
    the planes are in the common memory. *)
From Coq Require Import ZArith List Bool.
Import ListNotations.
From Verif Require Import Base Fmt Wrappers CpuInfo Spec ApiSpec Lib Sets Api Thread.
Open Scope Z_scope.

Definition c_answer := (c_result * option (option error_kind))%type.

(** lib.rs:1075-1179: [q_from] and [q_to] are the plane pointers, with the number of bytes of the
    caller's memory from there on. *)
Definition c_program (set : instruction_set) (q : request) (error : option (option error_kind)) : M c_answer :=
  dcp_convert_image (converters set) (q_w q) (q_h q)
    (Some (format_of (q_src q))) (i_strides (q_src q)) (Some (repeat true (length (q_from q))))
    (Some (format_of (q_dst q))) (i_strides (q_dst q)) (Some (repeat true (length (q_to q))))
    error.

Inductive c_thread :=
| Running (q : request) (c : M c_answer)       (* the call in progress: what remains of it *)
| Returned (a : c_answer)
| Died (f : fault).

(** One step of a thread. *)
Definition c_thread_step (T : target) (hp : memory) (th : c_thread) : memory * c_thread :=
  match th with
  | Running q c =>
      match act T c with
      | Done a => (hp, Returned a)
      | Failed f => (hp, Died f)
      | Next c' => (hp, Running q c')
      | Fetch s i k =>
          match address q s i with
          | Some a => (hp, Running q (k (hp a)))
          | None => (hp, Died OOB_read)
          end
      | Put s i v c' =>
          if is_dst s then
            match address q s i with
            | Some a => (set_byte hp a v, Running q c')
            | None => (hp, Died OOB_write)
            end
          else (hp, Died OOB_write)
      end
  | _ => (hp, th)
  end.

(** The step of thread number [t]. *)
Definition c_step (T : target) (t : nat) (st : memory * list c_thread) : memory * list c_thread :=
  match nth_error (snd st) t with
  | Some th => let '(hp', th') := c_thread_step T (fst st) th in (hp', upd (snd st) t th')
  | None => st
  end.

(** A schedule says which thread makes each step. *)
Definition c_interleave (T : target) (schedule : list nat) (st : memory * list c_thread) : memory * list c_thread :=
  fold_left (fun st t => c_step T t st) schedule st.

Definition c_start (set : instruction_set) (hp : memory) (calls : list request) : memory * list c_thread :=
  (hp, map (fun q => Running q (c_program set q None)) calls).

(** The address that the next step of a thread reads or writes, and whether it writes. *)
Definition c_next_access (T : target) (th : c_thread) : option (bool * Z) :=
  match th with
  | Running q c =>
      let at_ s i := match s_plane s with
                     | Src n => r_base (nth n (q_from q) (Region 0 0))
                     | Dst n => r_base (nth n (q_to q) (Region 0 0))
                     end + s_off s + i in
      match act T c with
      | Fetch s i _ => Some (false, at_ s i)
      | Put s i _ _ => Some (true, at_ s i)
      | _ => None
      end
  | _ => None
  end.
