(* The three routines of drbg/internal/aes/asm_amd64.s as instruction lists of the machine of AESNI.v.
   Labels are replaced by positions; a MOVQ from the argument frame is LdArg n for the n-th argument. *)
From Coq Require Import ZArith List.
From Verif Require Import AESNI.
Import ListNotations.
Open Scope Z_scope.

(* asm_amd64.s:9-58
   labels: encryptBlockAsm = 0, Lenc256 = 11, Lenc196 = 16, Lenc128 = 21 *)
Definition encryptBlockAsm : list ins := [
  LdArg 0 CX; (* 0: MOVQ nr+0(FP), CX; line 11 *)
  LdArg 1 AX; (* 1: MOVQ xk+8(FP), AX; line 12 *)
  LdArg 2 DX; (* 2: MOVQ dst+16(FP), DX; line 13 *)
  LdArg 3 BX; (* 3: MOVQ src+24(FP), BX; line 14 *)
  LdU 0 AX 1; (* 4: MOVUPS 0(AX), X1; line 15 *)
  LdU 0 BX 0; (* 5: MOVUPS 0(BX), X0; line 16 *)
  AddQ 16 AX; (* 6: ADDQ $16, AX; line 17 *)
  Pxor 1 0; (* 7: PXOR X1, X0; line 18 *)
  SubQ 12 CX; (* 8: SUBQ $12, CX; line 19 *)
  Je 16; (* 9: JE Lenc196; line 20 *)
  Jb 21; (* 10: JB Lenc128; line 21 *)
  LdU 0 AX 1; (* 11: MOVUPS 0(AX), X1; line 23 *)
  AesEnc 1 0; (* 12: AESENC X1, X0; line 24 *)
  LdU 16 AX 1; (* 13: MOVUPS 16(AX), X1; line 25 *)
  AesEnc 1 0; (* 14: AESENC X1, X0; line 26 *)
  AddQ 32 AX; (* 15: ADDQ $32, AX; line 27 *)
  LdU 0 AX 1; (* 16: MOVUPS 0(AX), X1; line 29 *)
  AesEnc 1 0; (* 17: AESENC X1, X0; line 30 *)
  LdU 16 AX 1; (* 18: MOVUPS 16(AX), X1; line 31 *)
  AesEnc 1 0; (* 19: AESENC X1, X0; line 32 *)
  AddQ 32 AX; (* 20: ADDQ $32, AX; line 33 *)
  LdU 0 AX 1; (* 21: MOVUPS 0(AX), X1; line 35 *)
  AesEnc 1 0; (* 22: AESENC X1, X0; line 36 *)
  LdU 16 AX 1; (* 23: MOVUPS 16(AX), X1; line 37 *)
  AesEnc 1 0; (* 24: AESENC X1, X0; line 38 *)
  LdU 32 AX 1; (* 25: MOVUPS 32(AX), X1; line 39 *)
  AesEnc 1 0; (* 26: AESENC X1, X0; line 40 *)
  LdU 48 AX 1; (* 27: MOVUPS 48(AX), X1; line 41 *)
  AesEnc 1 0; (* 28: AESENC X1, X0; line 42 *)
  LdU 64 AX 1; (* 29: MOVUPS 64(AX), X1; line 43 *)
  AesEnc 1 0; (* 30: AESENC X1, X0; line 44 *)
  LdU 80 AX 1; (* 31: MOVUPS 80(AX), X1; line 45 *)
  AesEnc 1 0; (* 32: AESENC X1, X0; line 46 *)
  LdU 96 AX 1; (* 33: MOVUPS 96(AX), X1; line 47 *)
  AesEnc 1 0; (* 34: AESENC X1, X0; line 48 *)
  LdU 112 AX 1; (* 35: MOVUPS 112(AX), X1; line 49 *)
  AesEnc 1 0; (* 36: AESENC X1, X0; line 50 *)
  LdU 128 AX 1; (* 37: MOVUPS 128(AX), X1; line 51 *)
  AesEnc 1 0; (* 38: AESENC X1, X0; line 52 *)
  LdU 144 AX 1; (* 39: MOVUPS 144(AX), X1; line 53 *)
  AesEncLast 1 0; (* 40: AESENCLAST X1, X0; line 54 *)
  StU 0 0 DX; (* 41: MOVUPS X0, 0(DX); line 55 *)
  Ret  (* 42: RET; line 56 *)
].

(* asm_amd64.s:60-109
   labels: decryptBlockAsm = 0, Ldec256 = 11, Ldec196 = 16, Ldec128 = 21 *)
Definition decryptBlockAsm : list ins := [
  LdArg 0 CX; (* 0: MOVQ nr+0(FP), CX; line 60 *)
  LdArg 1 AX; (* 1: MOVQ xk+8(FP), AX; line 61 *)
  LdArg 2 DX; (* 2: MOVQ dst+16(FP), DX; line 62 *)
  LdArg 3 BX; (* 3: MOVQ src+24(FP), BX; line 63 *)
  LdU 0 AX 1; (* 4: MOVUPS 0(AX), X1; line 64 *)
  LdU 0 BX 0; (* 5: MOVUPS 0(BX), X0; line 65 *)
  AddQ 16 AX; (* 6: ADDQ $16, AX; line 66 *)
  Pxor 1 0; (* 7: PXOR X1, X0; line 67 *)
  SubQ 12 CX; (* 8: SUBQ $12, CX; line 68 *)
  Je 16; (* 9: JE Ldec196; line 69 *)
  Jb 21; (* 10: JB Ldec128; line 70 *)
  LdU 0 AX 1; (* 11: MOVUPS 0(AX), X1; line 72 *)
  AesDec 1 0; (* 12: AESDEC X1, X0; line 73 *)
  LdU 16 AX 1; (* 13: MOVUPS 16(AX), X1; line 74 *)
  AesDec 1 0; (* 14: AESDEC X1, X0; line 75 *)
  AddQ 32 AX; (* 15: ADDQ $32, AX; line 76 *)
  LdU 0 AX 1; (* 16: MOVUPS 0(AX), X1; line 78 *)
  AesDec 1 0; (* 17: AESDEC X1, X0; line 79 *)
  LdU 16 AX 1; (* 18: MOVUPS 16(AX), X1; line 80 *)
  AesDec 1 0; (* 19: AESDEC X1, X0; line 81 *)
  AddQ 32 AX; (* 20: ADDQ $32, AX; line 82 *)
  LdU 0 AX 1; (* 21: MOVUPS 0(AX), X1; line 84 *)
  AesDec 1 0; (* 22: AESDEC X1, X0; line 85 *)
  LdU 16 AX 1; (* 23: MOVUPS 16(AX), X1; line 86 *)
  AesDec 1 0; (* 24: AESDEC X1, X0; line 87 *)
  LdU 32 AX 1; (* 25: MOVUPS 32(AX), X1; line 88 *)
  AesDec 1 0; (* 26: AESDEC X1, X0; line 89 *)
  LdU 48 AX 1; (* 27: MOVUPS 48(AX), X1; line 90 *)
  AesDec 1 0; (* 28: AESDEC X1, X0; line 91 *)
  LdU 64 AX 1; (* 29: MOVUPS 64(AX), X1; line 92 *)
  AesDec 1 0; (* 30: AESDEC X1, X0; line 93 *)
  LdU 80 AX 1; (* 31: MOVUPS 80(AX), X1; line 94 *)
  AesDec 1 0; (* 32: AESDEC X1, X0; line 95 *)
  LdU 96 AX 1; (* 33: MOVUPS 96(AX), X1; line 96 *)
  AesDec 1 0; (* 34: AESDEC X1, X0; line 97 *)
  LdU 112 AX 1; (* 35: MOVUPS 112(AX), X1; line 98 *)
  AesDec 1 0; (* 36: AESDEC X1, X0; line 99 *)
  LdU 128 AX 1; (* 37: MOVUPS 128(AX), X1; line 100 *)
  AesDec 1 0; (* 38: AESDEC X1, X0; line 101 *)
  LdU 144 AX 1; (* 39: MOVUPS 144(AX), X1; line 102 *)
  AesDecLast 1 0; (* 40: AESDECLAST X1, X0; line 103 *)
  StU 0 0 DX; (* 41: MOVUPS X0, 0(DX); line 104 *)
  Ret  (* 42: RET; line 105 *)
].

(* asm_amd64.s:113-276
   labels: expandKeyAsm = 0, Lexp_enc256 = 11, Lexp_enc196 = 41, Lexp_enc128 = 59, Lexp_dec = 79, Lexp_dec_loop = 83, _expand_key_128 = 93, _expand_key_192a = 102, _expand_key_192b = 121, _expand_key_256a = 135, _expand_key_256b = 136 *)
Definition expandKeyAsm : list ins := [
  LdArg 0 CX; (* 0: MOVQ nr+0(FP), CX; line 110 *)
  LdArg 1 AX; (* 1: MOVQ key+8(FP), AX; line 111 *)
  LdArg 2 BX; (* 2: MOVQ enc+16(FP), BX; line 112 *)
  LdArg 3 DX; (* 3: MOVQ dec+24(FP), DX; line 113 *)
  LdU 0 AX 0; (* 4: MOVUPS (AX), X0; line 114 *)
  StU 0 0 BX; (* 5: MOVUPS X0, (BX); line 116 *)
  AddQ 16 BX; (* 6: ADDQ $16, BX; line 117 *)
  Pxor 4 4; (* 7: PXOR X4, X4; line 118 *)
  CmpL CX 12; (* 8: CMPL CX, $12; line 119 *)
  Je 41; (* 9: JE Lexp_enc196; line 120 *)
  Jb 59; (* 10: JB Lexp_enc128; line 121 *)
  LdU 16 AX 2; (* 11: MOVUPS 16(AX), X2; line 123 *)
  StU 2 0 BX; (* 12: MOVUPS X2, (BX); line 124 *)
  AddQ 16 BX; (* 13: ADDQ $16, BX; line 125 *)
  KeyGenAssist 1 2 1; (* 14: AESKEYGENASSIST $0x01, X2, X1; line 126 *)
  Call 135; (* 15: CALL _expand_key_256a<>(SB); line 127 *)
  KeyGenAssist 1 0 1; (* 16: AESKEYGENASSIST $0x01, X0, X1; line 128 *)
  Call 136; (* 17: CALL _expand_key_256b<>(SB); line 129 *)
  KeyGenAssist 2 2 1; (* 18: AESKEYGENASSIST $0x02, X2, X1; line 130 *)
  Call 135; (* 19: CALL _expand_key_256a<>(SB); line 131 *)
  KeyGenAssist 2 0 1; (* 20: AESKEYGENASSIST $0x02, X0, X1; line 132 *)
  Call 136; (* 21: CALL _expand_key_256b<>(SB); line 133 *)
  KeyGenAssist 4 2 1; (* 22: AESKEYGENASSIST $0x04, X2, X1; line 134 *)
  Call 135; (* 23: CALL _expand_key_256a<>(SB); line 135 *)
  KeyGenAssist 4 0 1; (* 24: AESKEYGENASSIST $0x04, X0, X1; line 136 *)
  Call 136; (* 25: CALL _expand_key_256b<>(SB); line 137 *)
  KeyGenAssist 8 2 1; (* 26: AESKEYGENASSIST $0x08, X2, X1; line 138 *)
  Call 135; (* 27: CALL _expand_key_256a<>(SB); line 139 *)
  KeyGenAssist 8 0 1; (* 28: AESKEYGENASSIST $0x08, X0, X1; line 140 *)
  Call 136; (* 29: CALL _expand_key_256b<>(SB); line 141 *)
  KeyGenAssist 16 2 1; (* 30: AESKEYGENASSIST $0x10, X2, X1; line 142 *)
  Call 135; (* 31: CALL _expand_key_256a<>(SB); line 143 *)
  KeyGenAssist 16 0 1; (* 32: AESKEYGENASSIST $0x10, X0, X1; line 144 *)
  Call 136; (* 33: CALL _expand_key_256b<>(SB); line 145 *)
  KeyGenAssist 32 2 1; (* 34: AESKEYGENASSIST $0x20, X2, X1; line 146 *)
  Call 135; (* 35: CALL _expand_key_256a<>(SB); line 147 *)
  KeyGenAssist 32 0 1; (* 36: AESKEYGENASSIST $0x20, X0, X1; line 148 *)
  Call 136; (* 37: CALL _expand_key_256b<>(SB); line 149 *)
  KeyGenAssist 64 2 1; (* 38: AESKEYGENASSIST $0x40, X2, X1; line 150 *)
  Call 135; (* 39: CALL _expand_key_256a<>(SB); line 151 *)
  Jmp 79; (* 40: JMP Lexp_dec; line 152 *)
  LdQ 16 AX 2; (* 41: MOVQ 16(AX), X2; line 154 *)
  KeyGenAssist 1 2 1; (* 42: AESKEYGENASSIST $0x01, X2, X1; line 155 *)
  Call 102; (* 43: CALL _expand_key_192a<>(SB); line 156 *)
  KeyGenAssist 2 2 1; (* 44: AESKEYGENASSIST $0x02, X2, X1; line 157 *)
  Call 121; (* 45: CALL _expand_key_192b<>(SB); line 158 *)
  KeyGenAssist 4 2 1; (* 46: AESKEYGENASSIST $0x04, X2, X1; line 159 *)
  Call 102; (* 47: CALL _expand_key_192a<>(SB); line 160 *)
  KeyGenAssist 8 2 1; (* 48: AESKEYGENASSIST $0x08, X2, X1; line 161 *)
  Call 121; (* 49: CALL _expand_key_192b<>(SB); line 162 *)
  KeyGenAssist 16 2 1; (* 50: AESKEYGENASSIST $0x10, X2, X1; line 163 *)
  Call 102; (* 51: CALL _expand_key_192a<>(SB); line 164 *)
  KeyGenAssist 32 2 1; (* 52: AESKEYGENASSIST $0x20, X2, X1; line 165 *)
  Call 121; (* 53: CALL _expand_key_192b<>(SB); line 166 *)
  KeyGenAssist 64 2 1; (* 54: AESKEYGENASSIST $0x40, X2, X1; line 167 *)
  Call 102; (* 55: CALL _expand_key_192a<>(SB); line 168 *)
  KeyGenAssist 128 2 1; (* 56: AESKEYGENASSIST $0x80, X2, X1; line 169 *)
  Call 121; (* 57: CALL _expand_key_192b<>(SB); line 170 *)
  Jmp 79; (* 58: JMP Lexp_dec; line 171 *)
  KeyGenAssist 1 0 1; (* 59: AESKEYGENASSIST $0x01, X0, X1; line 173 *)
  Call 93; (* 60: CALL _expand_key_128<>(SB); line 174 *)
  KeyGenAssist 2 0 1; (* 61: AESKEYGENASSIST $0x02, X0, X1; line 175 *)
  Call 93; (* 62: CALL _expand_key_128<>(SB); line 176 *)
  KeyGenAssist 4 0 1; (* 63: AESKEYGENASSIST $0x04, X0, X1; line 177 *)
  Call 93; (* 64: CALL _expand_key_128<>(SB); line 178 *)
  KeyGenAssist 8 0 1; (* 65: AESKEYGENASSIST $0x08, X0, X1; line 179 *)
  Call 93; (* 66: CALL _expand_key_128<>(SB); line 180 *)
  KeyGenAssist 16 0 1; (* 67: AESKEYGENASSIST $0x10, X0, X1; line 181 *)
  Call 93; (* 68: CALL _expand_key_128<>(SB); line 182 *)
  KeyGenAssist 32 0 1; (* 69: AESKEYGENASSIST $0x20, X0, X1; line 183 *)
  Call 93; (* 70: CALL _expand_key_128<>(SB); line 184 *)
  KeyGenAssist 64 0 1; (* 71: AESKEYGENASSIST $0x40, X0, X1; line 185 *)
  Call 93; (* 72: CALL _expand_key_128<>(SB); line 186 *)
  KeyGenAssist 128 0 1; (* 73: AESKEYGENASSIST $0x80, X0, X1; line 187 *)
  Call 93; (* 74: CALL _expand_key_128<>(SB); line 188 *)
  KeyGenAssist 27 0 1; (* 75: AESKEYGENASSIST $0x1b, X0, X1; line 189 *)
  Call 93; (* 76: CALL _expand_key_128<>(SB); line 190 *)
  KeyGenAssist 54 0 1; (* 77: AESKEYGENASSIST $0x36, X0, X1; line 191 *)
  Call 93; (* 78: CALL _expand_key_128<>(SB); line 192 *)
  SubQ 16 BX; (* 79: SUBQ $16, BX; line 195 *)
  LdU 0 BX 1; (* 80: MOVUPS (BX), X1; line 196 *)
  StU 1 0 DX; (* 81: MOVUPS X1, (DX); line 197 *)
  DecQ CX; (* 82: DECQ CX; line 198 *)
  LdU (-16) BX 1; (* 83: MOVUPS -16(BX), X1; line 200 *)
  AesImc 1 0; (* 84: AESIMC X1, X0; line 201 *)
  StU 0 16 DX; (* 85: MOVUPS X0, 16(DX); line 202 *)
  SubQ 16 BX; (* 86: SUBQ $16, BX; line 203 *)
  AddQ 16 DX; (* 87: ADDQ $16, DX; line 204 *)
  DecQ CX; (* 88: DECQ CX; line 205 *)
  Jnz 83; (* 89: JNZ Lexp_dec_loop; line 206 *)
  LdU (-16) BX 0; (* 90: MOVUPS -16(BX), X0; line 207 *)
  StU 0 16 DX; (* 91: MOVUPS X0, 16(DX); line 208 *)
  Ret; (* 92: RET; line 209 *)
  Pshufd 255 1 1; (* 93: PSHUFD $0xff, X1, X1; line 212 *)
  Shufps 16 0 4; (* 94: SHUFPS $0x10, X0, X4; line 213 *)
  Pxor 4 0; (* 95: PXOR X4, X0; line 214 *)
  Shufps 140 0 4; (* 96: SHUFPS $0x8c, X0, X4; line 215 *)
  Pxor 4 0; (* 97: PXOR X4, X0; line 216 *)
  Pxor 1 0; (* 98: PXOR X1, X0; line 217 *)
  StU 0 0 BX; (* 99: MOVUPS X0, (BX); line 218 *)
  AddQ 16 BX; (* 100: ADDQ $16, BX; line 219 *)
  Ret; (* 101: RET; line 220 *)
  Pshufd 85 1 1; (* 102: PSHUFD $0x55, X1, X1; line 223 *)
  Shufps 16 0 4; (* 103: SHUFPS $0x10, X0, X4; line 224 *)
  Pxor 4 0; (* 104: PXOR X4, X0; line 225 *)
  Shufps 140 0 4; (* 105: SHUFPS $0x8c, X0, X4; line 226 *)
  Pxor 4 0; (* 106: PXOR X4, X0; line 227 *)
  Pxor 1 0; (* 107: PXOR X1, X0; line 228 *)
  MovX 2 5; (* 108: MOVAPS X2, X5; line 230 *)
  MovX 2 6; (* 109: MOVAPS X2, X6; line 231 *)
  Pslldq 4 5; (* 110: PSLLDQ $0x4, X5; line 232 *)
  Pshufd 255 0 3; (* 111: PSHUFD $0xff, X0, X3; line 233 *)
  Pxor 3 2; (* 112: PXOR X3, X2; line 234 *)
  Pxor 5 2; (* 113: PXOR X5, X2; line 235 *)
  MovX 0 1; (* 114: MOVAPS X0, X1; line 237 *)
  Shufps 68 0 6; (* 115: SHUFPS $0x44, X0, X6; line 238 *)
  StU 6 0 BX; (* 116: MOVUPS X6, (BX); line 239 *)
  Shufps 78 2 1; (* 117: SHUFPS $0x4e, X2, X1; line 240 *)
  StU 1 16 BX; (* 118: MOVUPS X1, 16(BX); line 241 *)
  AddQ 32 BX; (* 119: ADDQ $32, BX; line 242 *)
  Ret; (* 120: RET; line 243 *)
  Pshufd 85 1 1; (* 121: PSHUFD $0x55, X1, X1; line 246 *)
  Shufps 16 0 4; (* 122: SHUFPS $0x10, X0, X4; line 247 *)
  Pxor 4 0; (* 123: PXOR X4, X0; line 248 *)
  Shufps 140 0 4; (* 124: SHUFPS $0x8c, X0, X4; line 249 *)
  Pxor 4 0; (* 125: PXOR X4, X0; line 250 *)
  Pxor 1 0; (* 126: PXOR X1, X0; line 251 *)
  MovX 2 5; (* 127: MOVAPS X2, X5; line 253 *)
  Pslldq 4 5; (* 128: PSLLDQ $0x4, X5; line 254 *)
  Pshufd 255 0 3; (* 129: PSHUFD $0xff, X0, X3; line 255 *)
  Pxor 3 2; (* 130: PXOR X3, X2; line 256 *)
  Pxor 5 2; (* 131: PXOR X5, X2; line 257 *)
  StU 0 0 BX; (* 132: MOVUPS X0, (BX); line 259 *)
  AddQ 16 BX; (* 133: ADDQ $16, BX; line 260 *)
  Ret; (* 134: RET; line 261 *)
  Jmp 93; (* 135: JMP _expand_key_128<>(SB); line 264 *)
  Pshufd 170 1 1; (* 136: PSHUFD $0xaa, X1, X1; line 267 *)
  Shufps 16 2 4; (* 137: SHUFPS $0x10, X2, X4; line 268 *)
  Pxor 4 2; (* 138: PXOR X4, X2; line 269 *)
  Shufps 140 2 4; (* 139: SHUFPS $0x8c, X2, X4; line 270 *)
  Pxor 4 2; (* 140: PXOR X4, X2; line 271 *)
  Pxor 1 2; (* 141: PXOR X1, X2; line 272 *)
  StU 2 0 BX; (* 142: MOVUPS X2, (BX); line 274 *)
  AddQ 16 BX; (* 143: ADDQ $16, BX; line 275 *)
  Ret  (* 144: RET; line 276 *)
].
