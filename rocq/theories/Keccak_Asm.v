(* hash/sha3/keccakf_amd64.s: the Keccak permutation in amd64 assembly (build tags amd64,!appengine,!gccgo,!noasm; the
   portable keccakf.go is used otherwise).  The code below was produced from the text of the assembly file, macro by macro.

   The machine has the six instructions the file uses, on 64-bit words; none of them is conditional, so flags are left out.
   Memory is two blocks: 0 is the frame (SP), 1 the array passed by pointer.  Accesses outside a block, arithmetic on a
   pointer or on a cell that was never written are stuck (None).  The word arithmetic is a parameter: the same interpreter
   runs on integers ([kz], the semantics) and on expressions (Keccak_AsmProofs). *)
From Coq Require Import ZArith List Lia Bool.
From Verif Require Import Lib X86.
Import ListNotations.
Open Scope Z_scope.

Inductive kinstr : Type :=
| KMOV (src dst : opd) | KXOR (src dst : opd) | KOR (src dst : opd) | KAND (src dst : opd)
| KNOT (dst : opd) | KROL (k : Z) (dst : opd)
| KLEA (r : reg) (d : Z) (dst : reg).   (* LEAQ d(r), dst *)

Record kdom : Type := mkKdom {
  KW : Type; kcst : Z -> KW;
  kxor : KW -> KW -> KW; kor : KW -> KW -> KW; kand : KW -> KW -> KW; knot : KW -> KW; krol : Z -> KW -> KW }.

Section KMachine.
Variable D : kdom.
Inductive kcell : Type := KWd (w : KW D) | KPt (b : nat) (o : Z) | KUn.
Record kst : Type := mkKst { kregs : list kcell; kmem : list (list kcell) }.
Definition karg : kcell := KPt 1 0.   (* state+0(FP) *)

Definition kload (s : kst) (r : reg) (d : Z) : option kcell :=
  match nth_error (kregs s) (rn r) with
  | Some (KPt b o) => match nth_error (kmem s) b with Some l => slot l (o + d) | None => None end
  | _ => None
  end.
Definition krd (s : kst) (o : opd) : option kcell :=
  match o with
  | R r => nth_error (kregs s) (rn r)
  | Imm z => Some (KWd (kcst D z))
  | M r d => kload s r d
  | A d => if d =? 0 then Some karg else None
  | G _ _ => None
  end.
Definition kwr (s : kst) (o : opd) (v : kcell) : option kst :=
  match o with
  | R r => Some (mkKst (setl (kregs s) (rn r) v) (kmem s))
  | M r d =>
    match nth_error (kregs s) (rn r) with
    | Some (KPt b off) =>
      match nth_error (kmem s) b with
      | Some l =>
        match widx (off + d) with
        | Some i => if (i <? length l)%nat then Some (mkKst (kregs s) (setl (kmem s) b (setl l i v))) else None
        | None => None
        end
      | None => None
      end
    | _ => None
    end
  | _ => None
  end.
Definition kop2 (f : KW D -> KW D -> KW D) (s : kst) (src dst : opd) : option kst :=
  match krd s src, krd s dst with Some (KWd x), Some (KWd y) => kwr s dst (KWd (f y x)) | _, _ => None end.
Definition kop1 (f : KW D -> KW D) (s : kst) (dst : opd) : option kst :=
  match krd s dst with Some (KWd y) => kwr s dst (KWd (f y)) | _ => None end.
Definition kstep (i : kinstr) (s : kst) : option kst :=
  match i with
  | KMOV src dst => match krd s src with Some v => kwr s dst v | None => None end
  | KXOR src dst => kop2 (kxor D) s src dst
  | KOR src dst => kop2 (kor D) s src dst
  | KAND src dst => kop2 (kand D) s src dst
  | KNOT dst => kop1 (knot D) s dst
  | KROL k dst => kop1 (krol D k) s dst
  | KLEA r d dst => match nth_error (kregs s) (rn r) with Some (KPt b o) => kwr s (R dst) (KPt b (o + d)) | _ => None end
  end.
Fixpoint krun (c : list kinstr) (s : kst) : option kst :=
  match c with
  | [] => Some s
  | i :: c' => match kstep i s with Some s' => krun c' s' | None => None end
  end.
End KMachine.
Arguments KWd {D}. Arguments KPt {D}. Arguments KUn {D}. Arguments mkKst {D}. Arguments kregs {D}. Arguments kmem {D}.

(* 64-bit words; ROLQ by 0 < k < 64 *)
Definition kz : kdom :=
  mkKdom Z (fun z => z mod 2 ^ 64) Z.lxor Z.lor Z.land (fun x => 2 ^ 64 - 1 - x)
    (fun k x => (x * 2 ^ k) mod 2 ^ 64 + x / 2 ^ (64 - k)).

(* lines 61-68: the instructions passed to the macro *)
Definition MOVQ_RBI_RCE : list kinstr := [KMOV (R R12) (R BP)].
Definition XORQ_RT1_RCA : list kinstr := [KXOR (R AX) (R SI)].
Definition XORQ_RT1_RCE : list kinstr := [KXOR (R AX) (R BP)].
Definition XORQ_RBA_RCU : list kinstr := [KXOR (R R10) (R R15)].
Definition XORQ_RBE_RCU : list kinstr := [KXOR (R R11) (R R15)].
Definition XORQ_RDU_RCU : list kinstr := [KXOR (R R9) (R R15)].
Definition XORQ_RDA_RCA : list kinstr := [KXOR (R BX) (R SI)].
Definition XORQ_RDE_RCE : list kinstr := [KXOR (R CX) (R BP)].
Definition NOP : list kinstr := [].
(* mKeccakRound, lines 71-321 *)
Definition mKeccakRound (i o : reg) (rc : Z)
  (B_RBI_RCE G_RT1_RCA G_RT1_RCE G_RBA_RCU K_RT1_RCA K_RT1_RCE K_RBA_RCU M_RT1_RCA M_RT1_RCE M_RBE_RCU S_RDU_RCU S_RDA_RCA S_RDE_RCE : list kinstr) : list kinstr :=
  (* Prepare round: line 72 on *)
  [KMOV (R BP) (R BX); KROL 1 (R BX); KMOV (M i 16) (R R12); KXOR (M i 56) (R DX); KXOR (R R15) (R BX); KXOR (M i 96) (R R12); KXOR (M i 136) (R DX);
    KXOR (R DX) (R R12); KMOV (R R12) (R CX); KROL 1 (R CX); KMOV (M i 24) (R R13); KXOR (M i 64) (R R8); KXOR (R SI) (R CX); KXOR (M i 104) (R R13);
    KXOR (M i 144) (R R8); KXOR (R R8) (R R13); KMOV (R R13) (R DX); KROL 1 (R DX); KMOV (R R15) (R R8); KXOR (R BP) (R DX); KROL 1 (R R8);
    KMOV (R SI) (R R9); KXOR (R R12) (R R8); KROL 1 (R R9)] ++
  (* Result b: line 104 on *)
  [KMOV (M i 0) (R R10); KMOV (M i 48) (R R11); KXOR (R R13) (R R9); KMOV (M i 96) (R R12); KMOV (M i 144) (R R13); KMOV (M i 192) (R R14);
    KXOR (R CX) (R R11); KROL 44 (R R11); KXOR (R DX) (R R12); KXOR (R BX) (R R10); KROL 43 (R R12); KMOV (R R11) (R SI); KMOV (Imm rc) (R AX);
    KOR (R R12) (R SI); KXOR (R R10) (R AX); KXOR (R AX) (R SI); KMOV (R SI) (M o 0); KXOR (R R9) (R R14); KROL 14 (R R14); KMOV (R R10) (R R15);
    KAND (R R11) (R R15); KXOR (R R14) (R R15); KMOV (R R15) (M o 32); KXOR (R R8) (R R13); KROL 21 (R R13); KMOV (R R13) (R AX); KAND (R R14) (R AX);
    KXOR (R R12) (R AX); KMOV (R AX) (M o 16); KNOT (R R12); KOR (R R10) (R R14); KOR (R R13) (R R12); KXOR (R R13) (R R14); KXOR (R R11) (R R12);
    KMOV (R R14) (M o 24); KMOV (R R12) (M o 8)] ++ B_RBI_RCE ++
  (* Result g: line 147 on *)
  [KMOV (M i 72) (R R11); KXOR (R R9) (R R11); KMOV (M i 80) (R R12); KROL 20 (R R11); KXOR (R BX) (R R12); KROL 3 (R R12); KMOV (M i 24) (R R10);
    KMOV (R R11) (R AX); KOR (R R12) (R AX); KXOR (R R8) (R R10); KMOV (M i 128) (R R13); KMOV (M i 176) (R R14); KROL 28 (R R10); KXOR (R R10) (R AX);
    KMOV (R AX) (M o 40)] ++ G_RT1_RCA ++ [KXOR (R CX) (R R13); KROL 45 (R R13); KMOV (R R12) (R AX); KAND (R R13) (R AX); KXOR (R R11) (R AX); KMOV (R AX) (M o 48)] ++ G_RT1_RCE ++ [KXOR (R DX) (R R14); KROL 61 (R R14); KMOV (R R14) (R AX); KOR (R R10) (R AX); KXOR (R R13) (R AX); KMOV (R AX) (M o 64); KAND (R R11) (R R10);
    KXOR (R R14) (R R10); KMOV (R R10) (M o 72); KNOT (R R14)] ++ G_RBA_RCU ++ [KOR (R R14) (R R13); KXOR (R R12) (R R13); KMOV (R R13) (M o 56)] ++
  (* Result k: line 190 on *)
  [KMOV (M i 8) (R R10); KMOV (M i 56) (R R11); KMOV (M i 104) (R R12); KMOV (M i 152) (R R13); KMOV (M i 160) (R R14); KXOR (R DX) (R R11);
    KROL 6 (R R11); KXOR (R R8) (R R12); KROL 25 (R R12); KMOV (R R11) (R AX); KOR (R R12) (R AX); KXOR (R CX) (R R10); KROL 1 (R R10); KXOR (R R10) (R AX);
    KMOV (R AX) (M o 80)] ++ K_RT1_RCA ++ [KXOR (R R9) (R R13); KROL 8 (R R13); KMOV (R R12) (R AX); KAND (R R13) (R AX); KXOR (R R11) (R AX); KMOV (R AX) (M o 88)] ++ K_RT1_RCE ++ [KXOR (R BX) (R R14); KROL 18 (R R14); KNOT (R R13); KMOV (R R13) (R AX); KAND (R R14) (R AX); KXOR (R R12) (R AX); KMOV (R AX) (M o 96);
    KMOV (R R14) (R AX); KOR (R R10) (R AX); KXOR (R R13) (R AX); KMOV (R AX) (M o 104); KAND (R R11) (R R10); KXOR (R R14) (R R10); KMOV (R R10) (M o 112)] ++ K_RBA_RCU ++
  (* Result m: line 234 on *)
  [KMOV (M i 40) (R R11); KXOR (R BX) (R R11); KMOV (M i 88) (R R12); KROL 36 (R R11); KXOR (R CX) (R R12); KMOV (M i 32) (R R10); KROL 10 (R R12);
    KMOV (R R11) (R AX); KMOV (M i 136) (R R13); KAND (R R12) (R AX); KXOR (R R9) (R R10); KMOV (M i 184) (R R14); KROL 27 (R R10); KXOR (R R10) (R AX);
    KMOV (R AX) (M o 120)] ++ M_RT1_RCA ++ [KXOR (R DX) (R R13); KROL 15 (R R13); KMOV (R R12) (R AX); KOR (R R13) (R AX); KXOR (R R11) (R AX); KMOV (R AX) (M o 128)] ++ M_RT1_RCE ++ [KXOR (R R8) (R R14); KROL 56 (R R14); KNOT (R R13); KMOV (R R13) (R AX); KOR (R R14) (R AX); KXOR (R R12) (R AX); KMOV (R AX) (M o 136);
    KOR (R R10) (R R11); KXOR (R R14) (R R11); KMOV (R R11) (M o 152); KAND (R R10) (R R14); KXOR (R R13) (R R14); KMOV (R R14) (M o 144)] ++ M_RBE_RCU ++
  (* Result s: line 277 on *)
  [KMOV (M i 16) (R R10); KMOV (M i 64) (R R11); KMOV (M i 112) (R R12); KXOR (R DX) (R R10); KMOV (M i 120) (R R13); KROL 62 (R R10); KXOR (R R8) (R R11);
    KMOV (M i 168) (R R14); KROL 55 (R R11); KXOR (R R9) (R R12); KMOV (R R10) (R R9); KXOR (R CX) (R R14); KROL 2 (R R14); KAND (R R11) (R R9);
    KXOR (R R14) (R R9); KMOV (R R9) (M o 192); KROL 39 (R R12)] ++ S_RDU_RCU ++ [KNOT (R R11); KXOR (R BX) (R R13); KMOV (R R11) (R BX); KAND (R R12) (R BX); KXOR (R R10) (R BX); KMOV (R BX) (M o 160)] ++ S_RDA_RCA ++ [KROL 41 (R R13); KMOV (R R12) (R CX); KOR (R R13) (R CX); KXOR (R R11) (R CX); KMOV (R CX) (M o 168)] ++ S_RDE_RCE ++ [KMOV (R R13) (R DX); KMOV (R R14) (R R8); KAND (R R14) (R DX); KOR (R R10) (R R8); KXOR (R R12) (R DX); KXOR (R R13) (R R8); KMOV (R DX) (M o 176);
    KMOV (R R8) (M o 184)].
(* lines 324-355: complement six lanes, column parities *)
Definition preCode : list kinstr :=
  [KMOV (A 0) (R DI); KNOT (M DI 8); KNOT (M DI 16); KNOT (M DI 64); KNOT (M DI 96); KNOT (M DI 136); KNOT (M DI 160); KMOV (M DI 0) (R SI);
    KMOV (M DI 8) (R BP); KMOV (M DI 32) (R R15); KXOR (M DI 40) (R SI); KXOR (M DI 48) (R BP); KXOR (M DI 72) (R R15); KXOR (M DI 80) (R SI);
    KXOR (M DI 88) (R BP); KXOR (M DI 112) (R R15); KXOR (M DI 120) (R SI); KXOR (M DI 128) (R BP); KXOR (M DI 152) (R R15); KXOR (M DI 160) (R SI);
    KXOR (M DI 168) (R BP); KMOV (M DI 176) (R DX); KMOV (M DI 184) (R R8); KXOR (M DI 192) (R R15)].
(* lines 357-380 *)
Definition roundsCode : list kinstr :=
  mKeccakRound DI SP 0x0000000000000001 MOVQ_RBI_RCE XORQ_RT1_RCA XORQ_RT1_RCE XORQ_RBA_RCU XORQ_RT1_RCA XORQ_RT1_RCE XORQ_RBA_RCU XORQ_RT1_RCA XORQ_RT1_RCE XORQ_RBE_RCU XORQ_RDU_RCU XORQ_RDA_RCA XORQ_RDE_RCE ++
  mKeccakRound SP DI 0x0000000000008082 MOVQ_RBI_RCE XORQ_RT1_RCA XORQ_RT1_RCE XORQ_RBA_RCU XORQ_RT1_RCA XORQ_RT1_RCE XORQ_RBA_RCU XORQ_RT1_RCA XORQ_RT1_RCE XORQ_RBE_RCU XORQ_RDU_RCU XORQ_RDA_RCA XORQ_RDE_RCE ++
  mKeccakRound DI SP 0x800000000000808a MOVQ_RBI_RCE XORQ_RT1_RCA XORQ_RT1_RCE XORQ_RBA_RCU XORQ_RT1_RCA XORQ_RT1_RCE XORQ_RBA_RCU XORQ_RT1_RCA XORQ_RT1_RCE XORQ_RBE_RCU XORQ_RDU_RCU XORQ_RDA_RCA XORQ_RDE_RCE ++
  mKeccakRound SP DI 0x8000000080008000 MOVQ_RBI_RCE XORQ_RT1_RCA XORQ_RT1_RCE XORQ_RBA_RCU XORQ_RT1_RCA XORQ_RT1_RCE XORQ_RBA_RCU XORQ_RT1_RCA XORQ_RT1_RCE XORQ_RBE_RCU XORQ_RDU_RCU XORQ_RDA_RCA XORQ_RDE_RCE ++
  mKeccakRound DI SP 0x000000000000808b MOVQ_RBI_RCE XORQ_RT1_RCA XORQ_RT1_RCE XORQ_RBA_RCU XORQ_RT1_RCA XORQ_RT1_RCE XORQ_RBA_RCU XORQ_RT1_RCA XORQ_RT1_RCE XORQ_RBE_RCU XORQ_RDU_RCU XORQ_RDA_RCA XORQ_RDE_RCE ++
  mKeccakRound SP DI 0x0000000080000001 MOVQ_RBI_RCE XORQ_RT1_RCA XORQ_RT1_RCE XORQ_RBA_RCU XORQ_RT1_RCA XORQ_RT1_RCE XORQ_RBA_RCU XORQ_RT1_RCA XORQ_RT1_RCE XORQ_RBE_RCU XORQ_RDU_RCU XORQ_RDA_RCA XORQ_RDE_RCE ++
  mKeccakRound DI SP 0x8000000080008081 MOVQ_RBI_RCE XORQ_RT1_RCA XORQ_RT1_RCE XORQ_RBA_RCU XORQ_RT1_RCA XORQ_RT1_RCE XORQ_RBA_RCU XORQ_RT1_RCA XORQ_RT1_RCE XORQ_RBE_RCU XORQ_RDU_RCU XORQ_RDA_RCA XORQ_RDE_RCE ++
  mKeccakRound SP DI 0x8000000000008009 MOVQ_RBI_RCE XORQ_RT1_RCA XORQ_RT1_RCE XORQ_RBA_RCU XORQ_RT1_RCA XORQ_RT1_RCE XORQ_RBA_RCU XORQ_RT1_RCA XORQ_RT1_RCE XORQ_RBE_RCU XORQ_RDU_RCU XORQ_RDA_RCA XORQ_RDE_RCE ++
  mKeccakRound DI SP 0x000000000000008a MOVQ_RBI_RCE XORQ_RT1_RCA XORQ_RT1_RCE XORQ_RBA_RCU XORQ_RT1_RCA XORQ_RT1_RCE XORQ_RBA_RCU XORQ_RT1_RCA XORQ_RT1_RCE XORQ_RBE_RCU XORQ_RDU_RCU XORQ_RDA_RCA XORQ_RDE_RCE ++
  mKeccakRound SP DI 0x0000000000000088 MOVQ_RBI_RCE XORQ_RT1_RCA XORQ_RT1_RCE XORQ_RBA_RCU XORQ_RT1_RCA XORQ_RT1_RCE XORQ_RBA_RCU XORQ_RT1_RCA XORQ_RT1_RCE XORQ_RBE_RCU XORQ_RDU_RCU XORQ_RDA_RCA XORQ_RDE_RCE ++
  mKeccakRound DI SP 0x0000000080008009 MOVQ_RBI_RCE XORQ_RT1_RCA XORQ_RT1_RCE XORQ_RBA_RCU XORQ_RT1_RCA XORQ_RT1_RCE XORQ_RBA_RCU XORQ_RT1_RCA XORQ_RT1_RCE XORQ_RBE_RCU XORQ_RDU_RCU XORQ_RDA_RCA XORQ_RDE_RCE ++
  mKeccakRound SP DI 0x000000008000000a MOVQ_RBI_RCE XORQ_RT1_RCA XORQ_RT1_RCE XORQ_RBA_RCU XORQ_RT1_RCA XORQ_RT1_RCE XORQ_RBA_RCU XORQ_RT1_RCA XORQ_RT1_RCE XORQ_RBE_RCU XORQ_RDU_RCU XORQ_RDA_RCA XORQ_RDE_RCE ++
  mKeccakRound DI SP 0x000000008000808b MOVQ_RBI_RCE XORQ_RT1_RCA XORQ_RT1_RCE XORQ_RBA_RCU XORQ_RT1_RCA XORQ_RT1_RCE XORQ_RBA_RCU XORQ_RT1_RCA XORQ_RT1_RCE XORQ_RBE_RCU XORQ_RDU_RCU XORQ_RDA_RCA XORQ_RDE_RCE ++
  mKeccakRound SP DI 0x800000000000008b MOVQ_RBI_RCE XORQ_RT1_RCA XORQ_RT1_RCE XORQ_RBA_RCU XORQ_RT1_RCA XORQ_RT1_RCE XORQ_RBA_RCU XORQ_RT1_RCA XORQ_RT1_RCE XORQ_RBE_RCU XORQ_RDU_RCU XORQ_RDA_RCA XORQ_RDE_RCE ++
  mKeccakRound DI SP 0x8000000000008089 MOVQ_RBI_RCE XORQ_RT1_RCA XORQ_RT1_RCE XORQ_RBA_RCU XORQ_RT1_RCA XORQ_RT1_RCE XORQ_RBA_RCU XORQ_RT1_RCA XORQ_RT1_RCE XORQ_RBE_RCU XORQ_RDU_RCU XORQ_RDA_RCA XORQ_RDE_RCE ++
  mKeccakRound SP DI 0x8000000000008003 MOVQ_RBI_RCE XORQ_RT1_RCA XORQ_RT1_RCE XORQ_RBA_RCU XORQ_RT1_RCA XORQ_RT1_RCE XORQ_RBA_RCU XORQ_RT1_RCA XORQ_RT1_RCE XORQ_RBE_RCU XORQ_RDU_RCU XORQ_RDA_RCA XORQ_RDE_RCE ++
  mKeccakRound DI SP 0x8000000000008002 MOVQ_RBI_RCE XORQ_RT1_RCA XORQ_RT1_RCE XORQ_RBA_RCU XORQ_RT1_RCA XORQ_RT1_RCE XORQ_RBA_RCU XORQ_RT1_RCA XORQ_RT1_RCE XORQ_RBE_RCU XORQ_RDU_RCU XORQ_RDA_RCA XORQ_RDE_RCE ++
  mKeccakRound SP DI 0x8000000000000080 MOVQ_RBI_RCE XORQ_RT1_RCA XORQ_RT1_RCE XORQ_RBA_RCU XORQ_RT1_RCA XORQ_RT1_RCE XORQ_RBA_RCU XORQ_RT1_RCA XORQ_RT1_RCE XORQ_RBE_RCU XORQ_RDU_RCU XORQ_RDA_RCA XORQ_RDE_RCE ++
  mKeccakRound DI SP 0x000000000000800a MOVQ_RBI_RCE XORQ_RT1_RCA XORQ_RT1_RCE XORQ_RBA_RCU XORQ_RT1_RCA XORQ_RT1_RCE XORQ_RBA_RCU XORQ_RT1_RCA XORQ_RT1_RCE XORQ_RBE_RCU XORQ_RDU_RCU XORQ_RDA_RCA XORQ_RDE_RCE ++
  mKeccakRound SP DI 0x800000008000000a MOVQ_RBI_RCE XORQ_RT1_RCA XORQ_RT1_RCE XORQ_RBA_RCU XORQ_RT1_RCA XORQ_RT1_RCE XORQ_RBA_RCU XORQ_RT1_RCA XORQ_RT1_RCE XORQ_RBE_RCU XORQ_RDU_RCU XORQ_RDA_RCA XORQ_RDE_RCE ++
  mKeccakRound DI SP 0x8000000080008081 MOVQ_RBI_RCE XORQ_RT1_RCA XORQ_RT1_RCE XORQ_RBA_RCU XORQ_RT1_RCA XORQ_RT1_RCE XORQ_RBA_RCU XORQ_RT1_RCA XORQ_RT1_RCE XORQ_RBE_RCU XORQ_RDU_RCU XORQ_RDA_RCA XORQ_RDE_RCE ++
  mKeccakRound SP DI 0x8000000000008080 MOVQ_RBI_RCE XORQ_RT1_RCA XORQ_RT1_RCE XORQ_RBA_RCU XORQ_RT1_RCA XORQ_RT1_RCE XORQ_RBA_RCU XORQ_RT1_RCA XORQ_RT1_RCE XORQ_RBE_RCU XORQ_RDU_RCU XORQ_RDA_RCA XORQ_RDE_RCE ++
  mKeccakRound DI SP 0x0000000080000001 MOVQ_RBI_RCE XORQ_RT1_RCA XORQ_RT1_RCE XORQ_RBA_RCU XORQ_RT1_RCA XORQ_RT1_RCE XORQ_RBA_RCU XORQ_RT1_RCA XORQ_RT1_RCE XORQ_RBE_RCU XORQ_RDU_RCU XORQ_RDA_RCA XORQ_RDE_RCE ++
  mKeccakRound SP DI 0x8000000080008008 NOP NOP NOP NOP NOP NOP NOP NOP NOP NOP NOP NOP NOP.
(* lines 382-388 *)
Definition postCode : list kinstr :=
  [KNOT (M DI 8); KNOT (M DI 16); KNOT (M DI 64); KNOT (M DI 96); KNOT (M DI 136); KNOT (M DI 160)].
(* TEXT ·keccakF1600(SB), 0, $200-8: the Go assembler reserves one word more than the frame of 25 words for BP, and
   restores it before RET. *)
Definition keccakAsm : list kinstr :=
  [KMOV (R BP) (M SP 200); KLEA SP 200 BP] ++ preCode ++ roundsCode ++ postCode ++ [KMOV (M SP 200) (R BP)].

(* func keccakF1600(state *[25]uint64): the state and the BP of the caller before and after.  The registers and the frame
   hold unknown values on entry. *)
Definition word (c : kcell kz) : option Z := match c with KWd w => Some w | _ => None end.
Fixpoint words (l : list (kcell kz)) : option (list Z) :=
  match l with
  | [] => Some []
  | c :: t => match word c, words t with Some w, Some ws => Some (w :: ws) | _, _ => None end
  end.
Definition entryRegs (bp : Z) : list (kcell kz) := setl (setl (repeat KUn 16) (rn BP) (KWd (bp : KW kz))) (rn SP) (KPt 0 0).
Definition keccakCall (a : list Z) (bp : Z) : option (list Z * Z) :=
  match krun kz keccakAsm (mkKst (entryRegs bp) [repeat KUn 26; map (fun w => KWd w : kcell kz) a]) with
  | Some s =>
    match nth_error (kmem s) 1, nth_error (kregs s) (rn BP), nth_error (kregs s) (rn SP) with
    | Some l, Some (KWd b), Some (KPt 0%nat 0) => match words l with Some ws => Some (ws, b) | None => None end
    | _, _, _ => None
    end
  | None => None
  end.
