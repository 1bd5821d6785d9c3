(** Model of src/cpu_info.rs. The cpuid instruction is a function from the leaf
    number to (eax, ebx, ecx, edx); [is_aarch64_feature_detected!("neon")] is a
    boolean. *)
From Coq Require Import ZArith List Bool.
Import ListNotations.
From Verif Require Import Base.
Open Scope Z_scope.

(** src/cpu_info.rs:24-30 [enum CpuManufacturer]. *)
Inductive manufacturer := Unknown | Intel | Amd.

(** src/cpu_info.rs:33-41 [enum InstructionSet]. *)
Inductive instruction_set := X86 | Sse2 | Avx2 | Neon.

(** The registers returned by one cpuid execution, in the order of the [output]
    array: eax, ebx, ecx, edx (src/cpu_info.rs:49-57). *)
Record regs := Regs { eax : Z; ebx : Z; ecx : Z; edx : Z }.

(** src/cpu_info.rs:44-46 *)
Definition four_cc (a b c d : Z) : Z :=
  Z.lor (Z.lor (Z.lor (Z.shiftl d 24) (Z.shiftl c 16)) (Z.shiftl b 8)) a.

(** src/cpu_info.rs:60-64; [name] is a 12-byte string. *)
Definition compare_cpu_manufacturer (f : regs) (name : list Z) : Z :=
  let n i := nth i name 0 in
  Z.lor (Z.lor (u32 (ebx f - four_cc (n 0%nat) (n 1%nat) (n 2%nat) (n 3%nat)))
               (u32 (edx f - four_cc (n 4%nat) (n 5%nat) (n 6%nat) (n 7%nat))))
        (u32 (ecx f - four_cc (n 8%nat) (n 9%nat) (n 10%nat) (n 11%nat))).

(** The byte strings of src/cpu_info.rs:75-78: b"GenuineIntel", b"AuthenticAMD",
    b"AMDisbetter!". *)
Definition GenuineIntel : list Z := [71; 101; 110; 117; 105; 110; 101; 73; 110; 116; 101; 108].
(** src/cpu_info.rs:77 *)
Definition AuthenticAMD : list Z := [65; 117; 116; 104; 101; 110; 116; 105; 99; 65; 77; 68].
(** src/cpu_info.rs:78 *)
Definition AMDisbetter : list Z := [65; 77; 68; 105; 115; 98; 101; 116; 116; 101; 114; 33].

(** src/cpu_info.rs:67-103 *)
Definition get_x86 (cpuid : Z -> regs) : manufacturer * instruction_set :=
  let f := cpuid 0 in
  if eax f =? 0 then (Unknown, X86)
  else
    let m := if compare_cpu_manufacturer f GenuineIntel =? 0 then Intel
             else if (compare_cpu_manufacturer f AuthenticAMD =? 0)
                     || (compare_cpu_manufacturer f AMDisbetter =? 0) then Amd
             else Unknown in
    let f1 := cpuid 1 in
    if Z.land (edx f1) (Z.shiftl 1 26) =? 0 then (m, X86)
    else
      let b := match m with Amd => 0 | _ => ebx (cpuid 7) end in
      (m, if Z.land b (Z.shiftl 1 5) =? 0 then Sse2 else Avx2).

(** The three build configurations of src/cpu_info.rs:66-120, with what each of
    them can ask the processor. *)
Inductive cpu :=
| Cpu_x86 (cpuid : Z -> regs)      (* x86, x86_64: lines 66-103 *)
| Cpu_aarch64 (neon : bool)        (* aarch64: lines 105-115 *)
| Cpu_other.                       (* anything else (wasm32): lines 117-120 *)

(** src/cpu_info.rs:66-120 [get]. *)
Definition cpu_get (c : cpu) : manufacturer * instruction_set :=
  match c with
  | Cpu_x86 cpuid => get_x86 cpuid
  | Cpu_aarch64 neon => (Unknown, if neon then Neon else X86)
  | Cpu_other => (Unknown, X86)
  end.
