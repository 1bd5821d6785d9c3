(** Vocabulary of the properties of processes. *)
From Coq Require Import ZArith List Bool String.
Import ListNotations.
From Verif Require Import Base CpuInfo Lib Sets Api Process.

(** What a call answers when the context of the process is [ctx]. *)
Definition answer (ctx : context) (c : api_call) : api_result :=
  match c with
  | Describe => Text (describe_acceleration ctx)
  | Convert T w h src dst sb db => Converted (convert (converters (snd ctx)) T w h src dst sb db)
  end.

(** Sets whose instructions a processor with the given best set has. *)
Definition has_set (best s : instruction_set) : bool :=
  match s, best with
  | X86, _ => true
  | Sse2, (Sse2 | Avx2) => true
  | Avx2, Avx2 => true
  | Neon, Neon => true
  | _, _ => false
  end.

(** The name of a set for [initialize_with_instruction_set]. *)
Definition set_name (s : instruction_set) : string :=
  match s with X86 => "x86" | Sse2 => "sse2" | Avx2 => "avx2" | Neon => "neon" end.

(** What a C program can do with the strings: ask for one, for which the allocator finds any
    address that is not in use, and free one that it has, or null. *)
Inductive c_program : c_heap -> Prop :=
| c_start : c_program []
| c_describe : forall ctx p hp, c_program hp -> p <> 0%Z -> live hp p = false ->
    c_program (snd (dcp_describe_acceleration ctx p hp))
| c_unref : forall p hp hp', c_program hp -> dcp_unref_string p hp = Some hp' -> c_program hp'.
