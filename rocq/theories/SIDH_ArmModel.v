(* The arm64 field arithmetic of dh/sidh/internal/{p503,p751} as it is called (p434 has none: its generic code is used).
   arith_decl.go is built on arm64 without the tag noasm, and its functions are those of arith_arm64.s.  The functions have no
   frame.  An array has the FpWords (or 2*FpWords) words in use, as in SIDH_AsmModel. *)
From Coq Require Import ZArith List Bool.
From Verif Require Import Lib MP SIDH_Consts X86 SIDH_AsmModel SIDH_Arm503 SIDH_Arm751.
Import ListNotations.
Open Scope Z_scope.

Inductive apkg : Type := Q503 | Q751.
Definition pk (Q : apkg) : pkg := match Q with Q503 => P503 | Q751 => P751 end.

(* p503/params.go lines 48-52 *)
Definition P503p1s8 : list Z :=
  [0; 0; 0; 0; 0x085BDA2211E7A0AC; 0x9BF6C87B7E7DAF13; 0x45C6BDDA77A4D01B; 0x4066F541811E1E60].
(* P503, P503x2, P503p1s8 and P751, P751x2, P751p1 *)
Definition armGlob (Q : apkg) : list (list Z) :=
  [fP (fieldOf (pk Q)); fPx2 (fieldOf (pk Q)); match Q with Q503 => P503p1s8 | Q751 => fPp1 f751 end].

Definition cswapArm (Q : apkg) : list instr := match Q with Q503 => cswapP503Arm | Q751 => cswapP751Arm end.
Definition addArm (Q : apkg) : list instr := match Q with Q503 => addP503Arm | Q751 => addP751Arm end.
Definition subArm (Q : apkg) : list instr := match Q with Q503 => subP503Arm | Q751 => subP751Arm end.
Definition adlArm (Q : apkg) : list instr := match Q with Q503 => adlP503Arm | Q751 => adlP751Arm end.
Definition sulArm (Q : apkg) : list instr := match Q with Q503 => sulP503Arm | Q751 => sulP751Arm end.
Definition modArm (Q : apkg) : list instr := match Q with Q503 => modP503Arm | Q751 => modP751Arm end.
Definition rdcArm (Q : apkg) : list instr := match Q with Q503 => rdcP503Arm | Q751 => rdcP751Arm end.
Definition mulArm (Q : apkg) : list instr := match Q with Q503 => mulP503Arm | Q751 => mulP751Arm end.

(* a call with pointers to the arrays of the given numbers: the arrays afterwards *)
Definition armCall (code : apkg -> list instr) (Q : apkg) (ps : list nat) (blocks : list (list Z)) : option (list (list Z)) :=
  match call 0 (code Q) (map (fun a => Pt (S a) 0) ps) blocks (armGlob Q) 0 with Some (r, _) => Some r | None => None end.
(* func cswapP503(x, y *Fp, choice uint8); x and y are arrays number a and b *)
Definition armCswap (Q : apkg) (a b : nat) (choice : Z) (blocks : list (list Z)) : option (list (list Z)) :=
  match call 0 (cswapArm Q) [Pt (S a) 0; Pt (S b) 0; @Wd zdom choice] blocks (armGlob Q) 0 with Some (r, _) => Some r | None => None end.
