(* The amd64 routines of dh/csidh: fp511_amd64.s, with its macros expanded; the number before an instruction is its line (that of
   the macro call for a macro).  MOVB/MOVQ/... lose their size suffix; RET is the end of a list; CMPB hasBMI2, $1 followed by JE is
   JFLAG; MOVOU and MOVO are both MOVOU.  fp511_amd64.go:19-55 selects between mulBmiAsm and mulGeneric. *)
From Coq Require Import ZArith List.
From Verif Require Import X86.
Import ListNotations.
Open Scope Z_scope.

(* the package variables the file refers to *)
Definition g_hasBMI2 : nat := 0.
Definition g_p : nat := 1.
Definition g_pNegInv : nat := 2.

(* mul512, fp511_amd64.s lines 34-42, frame of 0 bytes *)
Definition mul512Asm_mul512_mulx : list instr := [
  (* 34 *) MOV (A 16) (R DX);
  (* 35 *) MULX (M SI 0) AX R10; MOV (R AX) (M DI 0);
  (* 36 *) MULX (M SI 8) AX R11; ADD (R R10) (R AX); MOV (R AX) (M DI 8);
  (* 37 *) MULX (M SI 16) AX R10; ADC (R R11) (R AX); MOV (R AX) (M DI 16);
  (* 38 *) MULX (M SI 24) AX R11; ADC (R R10) (R AX); MOV (R AX) (M DI 24);
  (* 39 *) MULX (M SI 32) AX R10; ADC (R R11) (R AX); MOV (R AX) (M DI 32);
  (* 40 *) MULX (M SI 40) AX R11; ADC (R R10) (R AX); MOV (R AX) (M DI 40);
  (* 41 *) MULX (M SI 48) AX R10; ADC (R R11) (R AX); MOV (R AX) (M DI 48);
  (* 42 *) MULX (M SI 56) AX R11; ADC (R R10) (R AX); MOV (R AX) (M DI 56) ].

(* mul512, fp511_amd64.s lines 14-29, frame of 0 bytes *)
Definition mul512Asm : list instr := [
  (* 14 *) MOV (A 0) (R DI);
  (* 15 *) MOV (A 8) (R SI);
  (* 18 *) JFLAG g_hasBMI2 mul512Asm_mul512_mulx;
  (* 21 *) MOV (A 16) (R R10);
  (* 22 *) MOV (R R10) (R AX); MUL (M SI 0); MOV (R DX) (R R11); MOV (R AX) (M DI 0);
  (* 23 *) MOV (R R10) (R AX); MUL (M SI 8); ADD (R R11) (R AX); ADC (Imm 0) (R DX); MOV (R DX) (R R11); MOV (R AX) (M DI 8);
  (* 24 *) MOV (R R10) (R AX); MUL (M SI 16); ADD (R R11) (R AX); ADC (Imm 0) (R DX); MOV (R DX) (R R11); MOV (R AX) (M DI 16);
  (* 25 *) MOV (R R10) (R AX); MUL (M SI 24); ADD (R R11) (R AX); ADC (Imm 0) (R DX); MOV (R DX) (R R11); MOV (R AX) (M DI 24);
  (* 26 *) MOV (R R10) (R AX); MUL (M SI 32); ADD (R R11) (R AX); ADC (Imm 0) (R DX); MOV (R DX) (R R11); MOV (R AX) (M DI 32);
  (* 27 *) MOV (R R10) (R AX); MUL (M SI 40); ADD (R R11) (R AX); ADC (Imm 0) (R DX); MOV (R DX) (R R11); MOV (R AX) (M DI 40);
  (* 28 *) MOV (R R10) (R AX); MUL (M SI 48); ADD (R R11) (R AX); ADC (Imm 0) (R DX); MOV (R DX) (R R11); MOV (R AX) (M DI 48);
  (* 29 *) MOV (R R10) (R AX); MUL (M SI 56); ADD (R R11) (R AX); MOV (R AX) (M DI 56) ].

(* mul576, fp511_amd64.s lines 54-66, frame of 0 bytes *)
Definition mul576Asm : list instr := [
  (* 54 *) MOV (A 0) (R DI);
  (* 55 *) MOV (A 8) (R SI);
  (* 57 *) MOV (A 16) (R R10);
  (* 58 *) MOV (R R10) (R AX); MUL (M SI 0); MOV (R DX) (R R11); MOV (R AX) (M DI 0);
  (* 59 *) MOV (R R10) (R AX); MUL (M SI 8); ADD (R R11) (R AX); ADC (Imm 0) (R DX); MOV (R DX) (R R11); MOV (R AX) (M DI 8);
  (* 60 *) MOV (R R10) (R AX); MUL (M SI 16); ADD (R R11) (R AX); ADC (Imm 0) (R DX); MOV (R DX) (R R11); MOV (R AX) (M DI 16);
  (* 61 *) MOV (R R10) (R AX); MUL (M SI 24); ADD (R R11) (R AX); ADC (Imm 0) (R DX); MOV (R DX) (R R11); MOV (R AX) (M DI 24);
  (* 62 *) MOV (R R10) (R AX); MUL (M SI 32); ADD (R R11) (R AX); ADC (Imm 0) (R DX); MOV (R DX) (R R11); MOV (R AX) (M DI 32);
  (* 63 *) MOV (R R10) (R AX); MUL (M SI 40); ADD (R R11) (R AX); ADC (Imm 0) (R DX); MOV (R DX) (R R11); MOV (R AX) (M DI 40);
  (* 64 *) MOV (R R10) (R AX); MUL (M SI 48); ADD (R R11) (R AX); ADC (Imm 0) (R DX); MOV (R DX) (R R11); MOV (R AX) (M DI 48);
  (* 65 *) MOV (R R10) (R AX); MUL (M SI 56); ADD (R R11) (R AX); ADC (Imm 0) (R DX); MOV (R AX) (M DI 56);
  (* 66 *) MOV (R DX) (M DI 64) ].

(* cswap512, fp511_amd64.s lines 72-109, frame of 0 bytes *)
Definition cswap512Asm : list instr := [
  (* 72 *) MOV (A 0) (R DI);
  (* 73 *) MOV (A 8) (R SI);
  (* 74 *) MOVZXB (A 16) AX;
  (* 78 *) NEG (R AX);
  (* 82 *) MOVX AX X15;
  (* 88 *) PSHUFD0 X15 X15;
  (* 106 *) MOVOU (M DI 0) (R X0); MOVOU (M SI 0) (R X1); MOVOU (R X1) (R X2); PXOR X0 X2; PAND X15 X2; PXOR X2 X0; PXOR X2 X1; MOVOU (R X0) (M DI 0); MOVOU (R X1) (M SI 0);
  (* 107 *) MOVOU (M DI 16) (R X0); MOVOU (M SI 16) (R X1); MOVOU (R X1) (R X2); PXOR X0 X2; PAND X15 X2; PXOR X2 X0; PXOR X2 X1; MOVOU (R X0) (M DI 16);
    MOVOU (R X1) (M SI 16);
  (* 108 *) MOVOU (M DI 32) (R X0); MOVOU (M SI 32) (R X1); MOVOU (R X1) (R X2); PXOR X0 X2; PAND X15 X2; PXOR X2 X0; PXOR X2 X1; MOVOU (R X0) (M DI 32);
    MOVOU (R X1) (M SI 32);
  (* 109 *) MOVOU (M DI 48) (R X0); MOVOU (M SI 48) (R X1); MOVOU (R X1) (R X2); PXOR X0 X2; PAND X15 X2; PXOR X2 X0; PXOR X2 X1; MOVOU (R X0) (M DI 48);
    MOVOU (R X1) (M SI 48) ].

(* mulBmiAsm, fp511_amd64.s lines 120-189, frame of 8 bytes *)
Definition mulBmiAsm : list instr := [
  (* 120 *) MOV (A 8) (R DI);
  (* 121 *) MOV (A 16) (R SI);
  (* 123 *) XOR (R R8) (R R8);
  (* 124 *) XOR (R R9) (R R9);
  (* 125 *) XOR (R R10) (R R10);
  (* 126 *) XOR (R R11) (R R11);
  (* 127 *) XOR (R R12) (R R12);
  (* 128 *) XOR (R R13) (R R13);
  (* 129 *) XOR (R R14) (R R14);
  (* 130 *) XOR (R R15) (R R15);
  (* 132 *) MOV (R BP) (M SP 0);
  (* 133 *) XOR (R BP) (R BP);
  (* 170 *) MOV (M SI 0) (R DX); MULX (M DI 0) DX CX; ADD (R R8) (R DX); MULX (G g_pNegInv 0) DX CX; XOR (R AX) (R AX); MULX (G g_p 0) AX BX; ADOX (R AX) R8;
    MULX (G g_p 8) AX CX; ADCX (R BX) R9; ADOX (R AX) R9; MULX (G g_p 16) AX BX; ADCX (R CX) R10; ADOX (R AX) R10; MULX (G g_p 24) AX CX; ADCX (R BX) R11;
    ADOX (R AX) R11; MULX (G g_p 32) AX BX; ADCX (R CX) R12; ADOX (R AX) R12; MULX (G g_p 40) AX CX; ADCX (R BX) R13; ADOX (R AX) R13; MULX (G g_p 48) AX BX;
    ADCX (R CX) R14; ADOX (R AX) R14; MULX (G g_p 56) AX CX; ADCX (R BX) R15; ADOX (R AX) R15; MOV (Imm 0) (R AX); ADCX (R CX) BP; ADOX (R AX) BP; MOV (M DI 0) (R DX);
    XOR (R AX) (R AX); MULX (M SI 0) AX BX; ADOX (R AX) R8; MULX (M SI 8) AX CX; ADCX (R BX) R9; ADOX (R AX) R9; MULX (M SI 16) AX BX; ADCX (R CX) R10;
    ADOX (R AX) R10; MULX (M SI 24) AX CX; ADCX (R BX) R11; ADOX (R AX) R11; MULX (M SI 32) AX BX; ADCX (R CX) R12; ADOX (R AX) R12; MULX (M SI 40) AX CX;
    ADCX (R BX) R13; ADOX (R AX) R13; MULX (M SI 48) AX BX; ADCX (R CX) R14; ADOX (R AX) R14; MULX (M SI 56) AX CX; ADCX (R BX) R15; ADOX (R AX) R15; MOV (Imm 0) (R AX);
    ADCX (R CX) BP; ADOX (R AX) BP;
  (* 171 *) MOV (M SI 0) (R DX); MULX (M DI 8) DX CX; ADD (R R9) (R DX); MULX (G g_pNegInv 0) DX CX; XOR (R AX) (R AX); MULX (G g_p 0) AX BX; ADOX (R AX) R9;
    MULX (G g_p 8) AX CX; ADCX (R BX) R10; ADOX (R AX) R10; MULX (G g_p 16) AX BX; ADCX (R CX) R11; ADOX (R AX) R11; MULX (G g_p 24) AX CX; ADCX (R BX) R12;
    ADOX (R AX) R12; MULX (G g_p 32) AX BX; ADCX (R CX) R13; ADOX (R AX) R13; MULX (G g_p 40) AX CX; ADCX (R BX) R14; ADOX (R AX) R14; MULX (G g_p 48) AX BX;
    ADCX (R CX) R15; ADOX (R AX) R15; MULX (G g_p 56) AX CX; ADCX (R BX) BP; ADOX (R AX) BP; MOV (Imm 0) (R AX); ADCX (R CX) R8; ADOX (R AX) R8; MOV (M DI 8) (R DX);
    XOR (R AX) (R AX); MULX (M SI 0) AX BX; ADOX (R AX) R9; MULX (M SI 8) AX CX; ADCX (R BX) R10; ADOX (R AX) R10; MULX (M SI 16) AX BX; ADCX (R CX) R11;
    ADOX (R AX) R11; MULX (M SI 24) AX CX; ADCX (R BX) R12; ADOX (R AX) R12; MULX (M SI 32) AX BX; ADCX (R CX) R13; ADOX (R AX) R13; MULX (M SI 40) AX CX;
    ADCX (R BX) R14; ADOX (R AX) R14; MULX (M SI 48) AX BX; ADCX (R CX) R15; ADOX (R AX) R15; MULX (M SI 56) AX CX; ADCX (R BX) BP; ADOX (R AX) BP; MOV (Imm 0) (R AX);
    ADCX (R CX) R8; ADOX (R AX) R8;
  (* 172 *) MOV (M SI 0) (R DX); MULX (M DI 16) DX CX; ADD (R R10) (R DX); MULX (G g_pNegInv 0) DX CX; XOR (R AX) (R AX); MULX (G g_p 0) AX BX; ADOX (R AX) R10;
    MULX (G g_p 8) AX CX; ADCX (R BX) R11; ADOX (R AX) R11; MULX (G g_p 16) AX BX; ADCX (R CX) R12; ADOX (R AX) R12; MULX (G g_p 24) AX CX; ADCX (R BX) R13;
    ADOX (R AX) R13; MULX (G g_p 32) AX BX; ADCX (R CX) R14; ADOX (R AX) R14; MULX (G g_p 40) AX CX; ADCX (R BX) R15; ADOX (R AX) R15; MULX (G g_p 48) AX BX;
    ADCX (R CX) BP; ADOX (R AX) BP; MULX (G g_p 56) AX CX; ADCX (R BX) R8; ADOX (R AX) R8; MOV (Imm 0) (R AX); ADCX (R CX) R9; ADOX (R AX) R9; MOV (M DI 16) (R DX);
    XOR (R AX) (R AX); MULX (M SI 0) AX BX; ADOX (R AX) R10; MULX (M SI 8) AX CX; ADCX (R BX) R11; ADOX (R AX) R11; MULX (M SI 16) AX BX; ADCX (R CX) R12;
    ADOX (R AX) R12; MULX (M SI 24) AX CX; ADCX (R BX) R13; ADOX (R AX) R13; MULX (M SI 32) AX BX; ADCX (R CX) R14; ADOX (R AX) R14; MULX (M SI 40) AX CX;
    ADCX (R BX) R15; ADOX (R AX) R15; MULX (M SI 48) AX BX; ADCX (R CX) BP; ADOX (R AX) BP; MULX (M SI 56) AX CX; ADCX (R BX) R8; ADOX (R AX) R8; MOV (Imm 0) (R AX);
    ADCX (R CX) R9; ADOX (R AX) R9;
  (* 173 *) MOV (M SI 0) (R DX); MULX (M DI 24) DX CX; ADD (R R11) (R DX); MULX (G g_pNegInv 0) DX CX; XOR (R AX) (R AX); MULX (G g_p 0) AX BX; ADOX (R AX) R11;
    MULX (G g_p 8) AX CX; ADCX (R BX) R12; ADOX (R AX) R12; MULX (G g_p 16) AX BX; ADCX (R CX) R13; ADOX (R AX) R13; MULX (G g_p 24) AX CX; ADCX (R BX) R14;
    ADOX (R AX) R14; MULX (G g_p 32) AX BX; ADCX (R CX) R15; ADOX (R AX) R15; MULX (G g_p 40) AX CX; ADCX (R BX) BP; ADOX (R AX) BP; MULX (G g_p 48) AX BX;
    ADCX (R CX) R8; ADOX (R AX) R8; MULX (G g_p 56) AX CX; ADCX (R BX) R9; ADOX (R AX) R9; MOV (Imm 0) (R AX); ADCX (R CX) R10; ADOX (R AX) R10; MOV (M DI 24) (R DX);
    XOR (R AX) (R AX); MULX (M SI 0) AX BX; ADOX (R AX) R11; MULX (M SI 8) AX CX; ADCX (R BX) R12; ADOX (R AX) R12; MULX (M SI 16) AX BX; ADCX (R CX) R13;
    ADOX (R AX) R13; MULX (M SI 24) AX CX; ADCX (R BX) R14; ADOX (R AX) R14; MULX (M SI 32) AX BX; ADCX (R CX) R15; ADOX (R AX) R15; MULX (M SI 40) AX CX;
    ADCX (R BX) BP; ADOX (R AX) BP; MULX (M SI 48) AX BX; ADCX (R CX) R8; ADOX (R AX) R8; MULX (M SI 56) AX CX; ADCX (R BX) R9; ADOX (R AX) R9; MOV (Imm 0) (R AX);
    ADCX (R CX) R10; ADOX (R AX) R10;
  (* 174 *) MOV (M SI 0) (R DX); MULX (M DI 32) DX CX; ADD (R R12) (R DX); MULX (G g_pNegInv 0) DX CX; XOR (R AX) (R AX); MULX (G g_p 0) AX BX; ADOX (R AX) R12;
    MULX (G g_p 8) AX CX; ADCX (R BX) R13; ADOX (R AX) R13; MULX (G g_p 16) AX BX; ADCX (R CX) R14; ADOX (R AX) R14; MULX (G g_p 24) AX CX; ADCX (R BX) R15;
    ADOX (R AX) R15; MULX (G g_p 32) AX BX; ADCX (R CX) BP; ADOX (R AX) BP; MULX (G g_p 40) AX CX; ADCX (R BX) R8; ADOX (R AX) R8; MULX (G g_p 48) AX BX;
    ADCX (R CX) R9; ADOX (R AX) R9; MULX (G g_p 56) AX CX; ADCX (R BX) R10; ADOX (R AX) R10; MOV (Imm 0) (R AX); ADCX (R CX) R11; ADOX (R AX) R11; MOV (M DI 32) (R DX);
    XOR (R AX) (R AX); MULX (M SI 0) AX BX; ADOX (R AX) R12; MULX (M SI 8) AX CX; ADCX (R BX) R13; ADOX (R AX) R13; MULX (M SI 16) AX BX; ADCX (R CX) R14;
    ADOX (R AX) R14; MULX (M SI 24) AX CX; ADCX (R BX) R15; ADOX (R AX) R15; MULX (M SI 32) AX BX; ADCX (R CX) BP; ADOX (R AX) BP; MULX (M SI 40) AX CX;
    ADCX (R BX) R8; ADOX (R AX) R8; MULX (M SI 48) AX BX; ADCX (R CX) R9; ADOX (R AX) R9; MULX (M SI 56) AX CX; ADCX (R BX) R10; ADOX (R AX) R10; MOV (Imm 0) (R AX);
    ADCX (R CX) R11; ADOX (R AX) R11;
  (* 175 *) MOV (M SI 0) (R DX); MULX (M DI 40) DX CX; ADD (R R13) (R DX); MULX (G g_pNegInv 0) DX CX; XOR (R AX) (R AX); MULX (G g_p 0) AX BX; ADOX (R AX) R13;
    MULX (G g_p 8) AX CX; ADCX (R BX) R14; ADOX (R AX) R14; MULX (G g_p 16) AX BX; ADCX (R CX) R15; ADOX (R AX) R15; MULX (G g_p 24) AX CX; ADCX (R BX) BP;
    ADOX (R AX) BP; MULX (G g_p 32) AX BX; ADCX (R CX) R8; ADOX (R AX) R8; MULX (G g_p 40) AX CX; ADCX (R BX) R9; ADOX (R AX) R9; MULX (G g_p 48) AX BX;
    ADCX (R CX) R10; ADOX (R AX) R10; MULX (G g_p 56) AX CX; ADCX (R BX) R11; ADOX (R AX) R11; MOV (Imm 0) (R AX); ADCX (R CX) R12; ADOX (R AX) R12; MOV (M DI 40) (R DX);
    XOR (R AX) (R AX); MULX (M SI 0) AX BX; ADOX (R AX) R13; MULX (M SI 8) AX CX; ADCX (R BX) R14; ADOX (R AX) R14; MULX (M SI 16) AX BX; ADCX (R CX) R15;
    ADOX (R AX) R15; MULX (M SI 24) AX CX; ADCX (R BX) BP; ADOX (R AX) BP; MULX (M SI 32) AX BX; ADCX (R CX) R8; ADOX (R AX) R8; MULX (M SI 40) AX CX; ADCX (R BX) R9;
    ADOX (R AX) R9; MULX (M SI 48) AX BX; ADCX (R CX) R10; ADOX (R AX) R10; MULX (M SI 56) AX CX; ADCX (R BX) R11; ADOX (R AX) R11; MOV (Imm 0) (R AX);
    ADCX (R CX) R12; ADOX (R AX) R12;
  (* 176 *) MOV (M SI 0) (R DX); MULX (M DI 48) DX CX; ADD (R R14) (R DX); MULX (G g_pNegInv 0) DX CX; XOR (R AX) (R AX); MULX (G g_p 0) AX BX; ADOX (R AX) R14;
    MULX (G g_p 8) AX CX; ADCX (R BX) R15; ADOX (R AX) R15; MULX (G g_p 16) AX BX; ADCX (R CX) BP; ADOX (R AX) BP; MULX (G g_p 24) AX CX; ADCX (R BX) R8;
    ADOX (R AX) R8; MULX (G g_p 32) AX BX; ADCX (R CX) R9; ADOX (R AX) R9; MULX (G g_p 40) AX CX; ADCX (R BX) R10; ADOX (R AX) R10; MULX (G g_p 48) AX BX;
    ADCX (R CX) R11; ADOX (R AX) R11; MULX (G g_p 56) AX CX; ADCX (R BX) R12; ADOX (R AX) R12; MOV (Imm 0) (R AX); ADCX (R CX) R13; ADOX (R AX) R13; MOV (M DI 48) (R DX);
    XOR (R AX) (R AX); MULX (M SI 0) AX BX; ADOX (R AX) R14; MULX (M SI 8) AX CX; ADCX (R BX) R15; ADOX (R AX) R15; MULX (M SI 16) AX BX; ADCX (R CX) BP;
    ADOX (R AX) BP; MULX (M SI 24) AX CX; ADCX (R BX) R8; ADOX (R AX) R8; MULX (M SI 32) AX BX; ADCX (R CX) R9; ADOX (R AX) R9; MULX (M SI 40) AX CX; ADCX (R BX) R10;
    ADOX (R AX) R10; MULX (M SI 48) AX BX; ADCX (R CX) R11; ADOX (R AX) R11; MULX (M SI 56) AX CX; ADCX (R BX) R12; ADOX (R AX) R12; MOV (Imm 0) (R AX);
    ADCX (R CX) R13; ADOX (R AX) R13;
  (* 177 *) MOV (M SI 0) (R DX); MULX (M DI 56) DX CX; ADD (R R15) (R DX); MULX (G g_pNegInv 0) DX CX; XOR (R AX) (R AX); MULX (G g_p 0) AX BX; ADOX (R AX) R15;
    MULX (G g_p 8) AX CX; ADCX (R BX) BP; ADOX (R AX) BP; MULX (G g_p 16) AX BX; ADCX (R CX) R8; ADOX (R AX) R8; MULX (G g_p 24) AX CX; ADCX (R BX) R9;
    ADOX (R AX) R9; MULX (G g_p 32) AX BX; ADCX (R CX) R10; ADOX (R AX) R10; MULX (G g_p 40) AX CX; ADCX (R BX) R11; ADOX (R AX) R11; MULX (G g_p 48) AX BX;
    ADCX (R CX) R12; ADOX (R AX) R12; MULX (G g_p 56) AX CX; ADCX (R BX) R13; ADOX (R AX) R13; MOV (Imm 0) (R AX); ADCX (R CX) R14; ADOX (R AX) R14; MOV (M DI 56) (R DX);
    XOR (R AX) (R AX); MULX (M SI 0) AX BX; ADOX (R AX) R15; MULX (M SI 8) AX CX; ADCX (R BX) BP; ADOX (R AX) BP; MULX (M SI 16) AX BX; ADCX (R CX) R8;
    ADOX (R AX) R8; MULX (M SI 24) AX CX; ADCX (R BX) R9; ADOX (R AX) R9; MULX (M SI 32) AX BX; ADCX (R CX) R10; ADOX (R AX) R10; MULX (M SI 40) AX CX;
    ADCX (R BX) R11; ADOX (R AX) R11; MULX (M SI 48) AX BX; ADCX (R CX) R12; ADOX (R AX) R12; MULX (M SI 56) AX CX; ADCX (R BX) R13; ADOX (R AX) R13; MOV (Imm 0) (R AX);
    ADCX (R CX) R14; ADOX (R AX) R14;
  (* 180 *) MOV (A 0) (R DI);
  (* 181 *) MOV (R BP) (M DI 0);
  (* 182 *) MOV (R R8) (M DI 8);
  (* 183 *) MOV (R R9) (M DI 16);
  (* 184 *) MOV (R R10) (M DI 24);
  (* 185 *) MOV (R R11) (M DI 32);
  (* 186 *) MOV (R R12) (M DI 40);
  (* 187 *) MOV (R R13) (M DI 48);
  (* 188 *) MOV (R R14) (M DI 56);
  (* 189 *) MOV (M SP 0) (R BP) ].
