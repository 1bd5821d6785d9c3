(** Model of the state of a process that uses the library: the global context over a sequence
    of API calls, the [test_instruction_sets] feature, and the strings handed out to C. *)
From Coq Require Import ZArith List Bool String Ascii.
Import ListNotations.
From Verif Require Import Base Fmt Wrappers CpuInfo Spec ApiSpec Lib Sets Api.
Open Scope Z_scope.

(** ** Calls one after the other *)

(** A call by a Rust program: lib.rs:600-607 or lib.rs:891-972 (on the given buffers). *)
Inductive api_call :=
| Describe
| Convert (T : target) (w h : Z) (src dst : image) (sb db : list (list Z)).
Inductive api_result :=
| Text (s : string)
| Converted (r : res outcome).

(** One call. [cpu_now] is what the processor would answer to cpu_info::get at this moment,
    [lock] the content of the [OnceLock] (lib.rs:521-524). In [convert_image] the context is
    consulted (lib.rs:934) after the checks that answer [InvalidValue] (lib.rs:911-928), and
    nothing else answers that. *)
Definition api_step (cpu_now : cpu) (lock : option context) (c : api_call)
  : api_result * option context :=
  let '(ctx, lock') := context_global cpu_now lock in
  match c with
  | Describe => (Text (describe_acceleration ctx), lock')
  | Convert T w h src dst sb db =>
      let r := convert (converters (snd ctx)) T w h src dst sb db in
      (Converted r, match r with Ok (Err InvalidValue) _ => lock | _ => lock' end)
  end.

(** The calls of a process from the start; [cpus t] is what the processor would answer at the
    time of call number [t]. *)
Fixpoint session_from (cpus : nat -> cpu) (t : nat) (lock : option context) (calls : list api_call)
  : list api_result :=
  match calls with
  | [] => []
  | c :: calls' =>
      let '(r, lock') := api_step (cpus t) lock c in r :: session_from cpus (S t) lock' calls'
  end.
Definition session (cpus : nat -> cpu) (calls : list api_call) : list api_result :=
  session_from cpus 0 None calls.

(** ** The feature test_instruction_sets (lib.rs:507-589, 936-946, 974-982) *)

(** lib.rs:516-517, 526-589: [test_converters], given by the module whose functions fill each
    table. *)
Definition test_converters (set : instruction_set) : list (option instruction_set) :=
  match set with
  | X86 => [None; None; None]
  | Sse2 => [Some X86; None; None]
  | Avx2 => [Some X86; Some Sse2; None]
  | Neon => [Some X86; None; None]
  end.

(** lib.rs:507-508: initial value of [TEST_SET], an i32. *)
Definition TEST_SET_INIT : Z := -1.

(** lib.rs:974-982 [initialize_with_instruction_set]: the new value of [TEST_SET]. *)
Definition initialize_with_instruction_set (name : string) : Z :=
  if String.eqb name "x86" then 0
  else if (String.eqb name "sse2" || String.eqb name "neon")%bool then 1
  else 2.

(** lib.rs:934-946: the module whose table [convert_image] uses. [as usize] sign-extends. *)
Definition used_set (T : target) (ctx : context) (test_set : Z) : instruction_set :=
  let i := test_set mod usz T in
  match (if i <? 3 then nth (Z.to_nat i) (test_converters (snd ctx)) None else None) with
  | Some s => s
  | None => snd ctx
  end.

(** ** Strings for C programs (lib.rs:1015-1031) *)

(** The strings that [CString::into_raw] has given away and [CString::from_raw] has not taken
    back: address and bytes, with the final NUL. 0 is the null pointer. *)
Definition c_heap := list (Z * list ascii).
Definition live (hp : c_heap) (p : Z) : bool := existsb (fun e => fst e =? p) hp.

Definition NUL : ascii := Ascii.zero.

(** [CString::new] (std): fails if the text contains a NUL. *)
Definition cstring_new (s : string) : option (list ascii) :=
  let l := list_ascii_of_string s in
  if existsb (Ascii.eqb NUL) l then None else Some (l ++ [NUL]).

(** lib.rs:1015-1024. [p] is the address that the allocator finds for the string. The result is
    the pointer, 0 for null. *)
Definition dcp_describe_acceleration (ctx : context) (p : Z) (hp : c_heap) : Z * c_heap :=
  match cstring_new (describe_acceleration ctx) with
  | Some l => (p, (p, l) :: hp)
  | None => (0, hp)
  end.

(** lib.rs:1026-1031. Freeing an address that is not live is undefined behaviour ([None]). *)
Definition dcp_unref_string (p : Z) (hp : c_heap) : option c_heap :=
  if p =? 0 then Some hp
  else if live hp p then Some (filter (fun e => negb (fst e =? p)) hp) else None.

(** What a C program sees behind a pointer to bytes: those before the first NUL. *)
Fixpoint c_text (l : list ascii) : option string :=
  match l with
  | [] => None
  | a :: l' => if Ascii.eqb a NUL then Some EmptyString
               else match c_text l' with Some s => Some (String a s) | None => None end
  end.
Definition c_string (hp : c_heap) (p : Z) : option string :=
  match find (fun e => fst e =? p) hp with Some e => c_text (snd e) | None => None end.
