(** What a processor says about itself: the vocabulary of the statements about cpu_info.rs. *)
From Coq Require Import String Ascii ZArith List Bool.
Import ListNotations.
From Verif Require Import Base CpuInfo.
Open Scope Z_scope.

(** The processor reports that it has the instructions of the set: SSE2 is bit 26 of edx of
    leaf 1, AVX2 is bit 5 of ebx of leaf 7 (asked of processors with SSE2 only); a processor
    whose leaf 0 answers 0 in eax reports nothing.  The portable code runs everywhere. *)
Definition reported (c : cpu) (s : instruction_set) : Prop :=
  match s, c with
  | X86, _ => True
  | Sse2, Cpu_x86 cpuid => eax (cpuid 0) <> 0 /\ Z.testbit (edx (cpuid 1)) 26 = true
  | Avx2, Cpu_x86 cpuid => eax (cpuid 0) <> 0 /\ Z.testbit (edx (cpuid 1)) 26 = true /\
                           Z.testbit (ebx (cpuid 7)) 5 = true
  | Neon, Cpu_aarch64 neon => neon = true
  | _, _ => False
  end.

(** The bytes of a register, lowest first. *)
Definition le_bytes (x : Z) : list Z := map (fun i => x / 256 ^ i mod 256) [0; 1; 2; 3].
(** The bytes of a text. *)
Definition text (s : string) : list Z :=
  map (fun a => Z.of_nat (nat_of_ascii a)) (list_ascii_of_string s).
(** The twelve characters of the vendor: ebx, edx, ecx of leaf 0. *)
Definition vendor_text (cpuid : Z -> regs) : list Z :=
  le_bytes (ebx (cpuid 0)) ++ le_bytes (edx (cpuid 0)) ++ le_bytes (ecx (cpuid 0)).
(** Registers have 32 bits. *)
Definition regs_u32 (r : regs) : Prop :=
  0 <= eax r < 2 ^ 32 /\ 0 <= ebx r < 2 ^ 32 /\ 0 <= ecx r < 2 ^ 32 /\ 0 <= edx r < 2 ^ 32.

(** ** The text of describe_acceleration *)

(** The parts of a text between occurrences of [sep]. *)
Fixpoint split_text (sep : ascii) (s : string) : list string :=
  match s with
  | EmptyString => [EmptyString]
  | String a s' =>
      if Ascii.eqb a sep then EmptyString :: split_text sep s'
      else match split_text sep s' with
           | [] => [String a EmptyString]
           | w :: ws => String a w :: ws
           end
  end.
(** A text of the form {key:value,key:value}: keys and values. *)
Definition described_as (s : string) (fields : list (string * string)) : Prop :=
  exists inner, s = ("{" ++ inner ++ "}")%string /\
    map (split_text ":"%char) (split_text ","%char inner) = map (fun f => [fst f; snd f]) fields.
(** The words for manufacturers and sets. *)
Definition vendor_word (m : manufacturer) : string :=
  match m with Unknown => "Unknown" | Intel => "Intel" | Amd => "Amd" end.
Definition set_word (s : instruction_set) : string :=
  match s with X86 => "X86" | Sse2 => "Sse2" | Avx2 => "Avx2" | Neon => "Neon" end.
