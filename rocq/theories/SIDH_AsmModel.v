(* The amd64 field arithmetic of dh/sidh/internal/{p434,p503,p751} as it is called: the package variables, the assembler's
   frame code, and one table for the three packages.  An array has the FpWords (or 2*FpWords) words in use; common.Fp and
   common.FpX2 are longer, and a run that touches the rest is stuck here. *)
From Coq Require Import ZArith List Bool.
From Verif Require Import Lib MP SIDH_Consts X86 SIDH_Asm434 SIDH_Asm503 SIDH_Asm751.
Import ListNotations.
Open Scope Z_scope.

Inductive pkg : Type := P434 | P503 | P751.
Definition fieldOf (P : pkg) : fieldParams := match P with P434 => f434 | P503 => f503 | P751 => f751 end.
Definition nOf (P : pkg) : nat := FpWords (fieldOf P).

(* params.go lines 16-19: HasBMI2 = cpu.X86.HasBMI2, HasADXandBMI2 = cpu.X86.HasBMI2 && cpu.X86.HasADX; and P434p1 *)
Definition sidhGlob (P : pkg) (bmi2 adx : bool) : list (list Z) := [[if bmi2 then 1 else 0]; [if bmi2 && adx then 1 else 0]; fPp1 (fieldOf P)].

(* TEXT with a frame of n > 0 words: the Go assembler reserves one word more, puts BP in it and lets BP point at it, and
   restores BP before each RET.  The address of that word is passed as an extra last argument (at offset off). *)
Definition epilogue (n : nat) : list instr := [MOV (M SP (8 * Z.of_nat n)) (R BP)].
Definition framed (n : nat) (off : Z) (code : list instr) : list instr :=
  [MOV (R BP) (M SP (8 * Z.of_nat n)); MOV (A off) (R BP)] ++
  map (fun i => match i with JFLAG g target => JFLAG g (target ++ epilogue n) | _ => i end) code ++ epilogue n.

Definition cswapAsm (P : pkg) : list instr := match P with P434 => cswapP434Asm | P503 => cswapP503Asm | P751 => cswapP751Asm end.
Definition addAsm (P : pkg) : list instr := match P with P434 => addP434Asm | P503 => addP503Asm | P751 => addP751Asm end.
Definition subAsm (P : pkg) : list instr := match P with P434 => subP434Asm | P503 => subP503Asm | P751 => subP751Asm end.
Definition adlAsm (P : pkg) : list instr := match P with P434 => adlP434Asm | P503 => adlP503Asm | P751 => adlP751Asm end.
Definition sulAsm (P : pkg) : list instr := match P with P434 => sulP434Asm | P503 => sulP503Asm | P751 => sulP751Asm end.
Definition modAsm (P : pkg) : list instr := match P with P434 => modP434Asm | P503 => modP503Asm | P751 => modP751Asm end.
Definition rdcAsm (P : pkg) : list instr := match P with P434 => rdcP434Asm | P503 => rdcP503Asm | P751 => rdcP751Asm end.
(* $112-24, $104-24 and $96-24 *)
Definition mulFrame (P : pkg) : nat := match P with P434 => 14 | P503 => 13 | P751 => 12 end.
Definition mulBody (P : pkg) : list instr := match P with P434 => mulP434Asm | P503 => mulP503Asm | P751 => mulP751Asm end.
Definition mulAsm (P : pkg) : list instr := framed (mulFrame P) 24 (mulBody P).
(* func mulP434(z *FpX2, x, y *Fp): z, x, y are arrays number a, b, c; fp is the address of the word that saves BP *)
Definition mulCall (P : pkg) (bmi2 adx : bool) (a b c : nat) (fp : Z) (blocks : list (list Z)) (bp : Z) : option (list (list Z) * Z) :=
  call (S (mulFrame P)) (mulAsm P) [Pt (S a) 0; Pt (S b) 0; Pt (S c) 0; @Wd zdom fp] blocks (sidhGlob P bmi2 adx) bp.
(* func rdcP434(z *Fp, x *FpX2) *)
Definition rdcCall (P : pkg) (bmi2 adx : bool) (a b : nat) (blocks : list (list Z)) (bp : Z) : option (list (list Z) * Z) :=
  call 0 (rdcAsm P) [Pt (S a) 0; Pt (S b) 0] blocks (sidhGlob P bmi2 adx) bp.
(* the other kernels: pointers to arrays only *)
Definition ptrCall (code : pkg -> list instr) (P : pkg) (bmi2 adx : bool) (ps : list nat) (blocks : list (list Z)) (bp : Z) : option (list (list Z) * Z) :=
  call 0 (code P) (map (fun a => Pt (S a) 0) ps) blocks (sidhGlob P bmi2 adx) bp.
