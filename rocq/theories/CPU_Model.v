(* Model of utils/cpuid_amd64.go and utils/cpu.go.  The CPU is a function from the CPUID inputs (EAX, ECX) to the four registers it leaves. *)
From Coq Require Import ZArith List Bool.
Open Scope Z_scope.

Record cpuRegs := mkRegs { rEAX : Z; rEBX : Z; rECX : Z; rEDX : Z }.
(* cpuid_amd64.s:5-13: the four results are AX, BX, CX, DX in this order *)
Definition cpuid (cpu : Z -> Z -> cpuRegs) (eaxArg ecxArg : Z) : Z * Z * Z * Z :=
  let r := cpu eaxArg ecxArg in (rEAX r, rEBX r, rECX r, rEDX r).
(* cpuid_amd64.go:15-17 *)
Definition bitn (bits n : Z) : bool := Z.land (Z.shiftr bits n) 1 =? 1.
(* cpu.go:3-15 *)
Record x86 := mkX86 { HasBMI2 : bool; HasADX : bool; HasAES : bool; HasRDSEED : bool }.
Definition X86_zero : x86 := mkX86 false false false false.
(* cpuid_amd64.go:19-33 *)
Definition init (cpu : Z -> Z -> cpuRegs) : x86 :=
  let '(max, _, _, _) := cpuid cpu 0 0 in
  if max <? 7 then X86_zero
  else
    let '(_, ecx, _, _) := cpuid cpu 1 0 in
    let aes := bitn ecx 25 in
    let '(_, ecx, _, _) := cpuid cpu 7 0 in
    mkX86 (bitn ecx 8) (bitn ecx 19) aes (bitn ecx 18).
(* dh/csidh/fp511.go:15-17, dh/sidh/internal/p434/core.go, p503/params.go, p751/params.go:16-19 *)
Definition hasADXandBMI2 (f : x86) : bool := HasBMI2 f && HasADX f.
