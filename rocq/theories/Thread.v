(** Model of threads that call the library at the same time.

    The code itself starts no thread and takes no lock besides the [OnceLock] of lib.rs:521-524
    (whose races are the subject of C29). This file models threads of a Rust program, each of which
    calls [convert_image] (lib.rs:891-972) any number of times on parts of one common memory. One
    step of a thread is one arithmetic operation or one access to one byte, so that an access of
    several bytes (the vector loads and stores) is not atomic. Steps of different threads are
    interleaved in any order; effects of weak memory orderings do not exist for programs without
    data races (and C58_no_data_race shows there is none).

    Simplified: all threads use the same instruction set from the start (C44), and a thread that
    faults stops there; panics are not caught, and after undefined behaviour the model says
    nothing useful. *)
From Coq Require Import ZArith List Bool.
Import ListNotations.
From Verif Require Import Base Fmt Wrappers CpuInfo Spec ApiSpec Lib Sets Api.
Open Scope Z_scope.

(** ** One memory for all threads *)

(** The byte at each address. *)
Definition memory := Z -> Z.

(** What a Rust slice [&[u8]] or [&mut [u8]] is to the caller: an address and a length. *)
Record region := Region { r_base : Z; r_len : Z }.

Definition bytes_of (hp : memory) (r : region) : list Z :=
  map hp (zrange (r_base r) (r_base r + r_len r)).

(** ** The next step of a program *)

Inductive action (A : Type) : Type :=
| Done (a : A)
| Failed (f : fault)
| Next (c : M A)
| Fetch (s : slice) (i : Z) (k : Z -> M A)
| Put (s : slice) (i v : Z) (c : M A).
Arguments Done {A} a.
Arguments Failed {A} f.
Arguments Next {A} c.
Arguments Fetch {A} s i k.
Arguments Put {A} s i v c.

Fixpoint act {A} (T : target) (c : M A) {struct c} : action A :=
  match c with
  | Ret a => Done a
  | Raise f => Failed f
  | Bind c k =>
      match act T c with
      | Done a => Next (k a)
      | Failed f => Failed f
      | Next c' => Next (Bind c' k)
      | Fetch s i k' => Fetch s i (fun v => Bind (k' v) k)
      | Put s i v c' => Put s i v (Bind c' k)
      end
  | Ask k => Next (k T)
  | Usize r k =>
      if (0 <=? r) && (r <? usz T) then Next (k r)
      else if checked T then Failed Overflow
      else Next (k (r mod usz T))
  | Int32 r k =>
      if (- 2 ^ 31 <=? r) && (r <? 2 ^ 31) then Next (k r)
      else if checked T then Failed Overflow
      else Next (k (wrap_i32 r))
  | Read s i k => Fetch s i k
  | Write s i v k => Put s i v (k tt)
  end.

(** ** Threads *)

(** One call of [convert_image] with the slices given by [q_from] and [q_to]. *)
Record request := Request {
  q_w : Z; q_h : Z;
  q_src : image; q_dst : image;
  q_from : list region;     (* src_buffers: &[&[u8]] *)
  q_to : list region        (* dst_buffers: &mut [&mut [u8]] *)
}.

Inductive answer := Answer (o : outcome) | Crash (f : fault).

Record thread := Thread {
  todo : list request;                          (* calls not yet begun *)
  current : option (request * M outcome);       (* the call in progress: what remains of it *)
  answers : list answer                         (* of the calls completed *)
}.

Fixpoint region_slices (mk : nat -> plane) (i : nat) (rs : list region) : list slice :=
  match rs with
  | [] => []
  | r :: rs' => Slice (mk i) 0 (Z.max 0 (r_len r)) :: region_slices mk (S i) rs'
  end.

(** lib.rs:891-972 *)
Definition program (set : instruction_set) (q : request) : M outcome :=
  convert_image (converters set) (q_w q) (q_h q)
    (format_of (q_src q)) (option_map arr_of (i_strides (q_src q)))
    (arr_of (region_slices Src 0 (q_from q)))
    (format_of (q_dst q)) (option_map arr_of (i_strides (q_dst q)))
    (arr_of (region_slices Dst 0 (q_to q))).

(** The address of byte [i] of a slice, if it is inside of the slice and of the region the slice
    was made from. *)
Definition address (q : request) (s : slice) (i : Z) : option Z :=
  let r := match s_plane s with
           | Src n => nth n (q_from q) (Region 0 0)
           | Dst n => nth n (q_to q) (Region 0 0)
           end in
  if (0 <=? i) && (i <? s_len s) && (0 <=? s_off s + i) && (s_off s + i <? r_len r)
  then Some (r_base r + s_off s + i) else None.

Definition is_dst (s : slice) : bool := match s_plane s with Src _ => false | Dst _ => true end.

Definition set_byte (hp : memory) (a v : Z) : memory := fun x => if x =? a then v else hp x.

Definition crash (th : thread) (f : fault) : thread := Thread [] None (answers th ++ [Crash f]).

(** One step of a thread. *)
Definition thread_step (set : instruction_set) (T : target) (hp : memory) (th : thread) : memory * thread :=
  match current th with
  | None =>
      match todo th with
      | [] => (hp, th)
      | q :: qs => (hp, Thread qs (Some (q, program set q)) (answers th))
      end
  | Some (q, c) =>
      let go c' := Thread (todo th) (Some (q, c')) (answers th) in
      match act T c with
      | Done o => (hp, Thread (todo th) None (answers th ++ [Answer o]))
      | Failed f => (hp, crash th f)
      | Next c' => (hp, go c')
      | Fetch s i k =>
          match address q s i with
          | Some a => (hp, go (k (hp a)))
          | None => (hp, crash th OOB_read)
          end
      | Put s i v c' =>
          if is_dst s then
            match address q s i with
            | Some a => (set_byte hp a v, go c')
            | None => (hp, crash th OOB_write)
            end
          else (hp, crash th OOB_write)
      end
  end.

(** The step of thread number [t]. *)
Definition step (set : instruction_set) (T : target) (t : nat) (st : memory * list thread) : memory * list thread :=
  match nth_error (snd st) t with
  | Some th => let '(hp', th') := thread_step set T (fst st) th in (hp', upd (snd st) t th')
  | None => st
  end.

(** A schedule says which thread makes each step. *)
Definition interleave (set : instruction_set) (T : target) (schedule : list nat) (st : memory * list thread)
  : memory * list thread :=
  fold_left (fun st t => step set T t st) schedule st.

Definition start (hp : memory) (calls : list (list request)) : memory * list thread :=
  (hp, map (fun qs => Thread qs None []) calls).

(** The address that the next step of a thread reads or writes, and whether it writes. A call that
    is about to leave its slices has an address too: that of the pointer. *)
Definition next_access (T : target) (th : thread) : option (bool * Z) :=
  match current th with
  | None => None
  | Some (q, c) =>
      let at_ s i := match s_plane s with
                     | Src n => r_base (nth n (q_from q) (Region 0 0))
                     | Dst n => r_base (nth n (q_to q) (Region 0 0))
                     end + s_off s + i in
      match act T c with
      | Fetch s i _ => Some (false, at_ s i)
      | Put s i _ _ => Some (true, at_ s i)
      | _ => None
      end
  end.
