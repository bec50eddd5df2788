(* The arm64 routines of dh/sidh/internal/p503/arith_arm64.s, with its macros expanded; the number before an instruction is its
   line (that of the macro call for a macro).  RET is the end of a list; CMP $0, r followed by CSELs that use its flags are
   ACSELs on r (r is not changed in between); package variables are numbered P503, P503x2, P503p1s8. *)
From Coq Require Import ZArith List.
From Verif Require Import X86.
Import ListNotations.
Open Scope Z_scope.

(* cswapP503, arith_arm64.s from line 5, frame of 0 bytes *)
Definition cswapP503Arm : list instr := [
  (* 6 *) MOV (A 0) (R (AR 0));
  (* 7 *) MOV (A 8) (R (AR 1));
  (* 8 *) ARM (AMOVB (A 16) (AR 2));
  (* 14 *) MOV (M (AR 0) 0) (R (AR 3));
  (* 14 *) MOV (M (AR 0) 8) (R (AR 4));
  (* 15 *) MOV (M (AR 1) 0) (R (AR 5));
  (* 15 *) MOV (M (AR 1) 8) (R (AR 6));
  (* 16 *) ARM (ACSEL true (AR 2) (R (AR 3)) (R (AR 5)) (AR 7));
  (* 17 *) ARM (ACSEL true (AR 2) (R (AR 4)) (R (AR 6)) (AR 8));
  (* 18 *) MOV (R (AR 7)) (M (AR 0) 0);
  (* 18 *) MOV (R (AR 8)) (M (AR 0) 8);
  (* 19 *) ARM (ACSEL false (AR 2) (R (AR 3)) (R (AR 5)) (AR 9));
  (* 20 *) ARM (ACSEL false (AR 2) (R (AR 4)) (R (AR 6)) (AR 10));
  (* 21 *) MOV (R (AR 9)) (M (AR 1) 0);
  (* 21 *) MOV (R (AR 10)) (M (AR 1) 8);
  (* 23 *) MOV (M (AR 0) 16) (R (AR 3));
  (* 23 *) MOV (M (AR 0) 24) (R (AR 4));
  (* 24 *) MOV (M (AR 1) 16) (R (AR 5));
  (* 24 *) MOV (M (AR 1) 24) (R (AR 6));
  (* 25 *) ARM (ACSEL true (AR 2) (R (AR 3)) (R (AR 5)) (AR 7));
  (* 26 *) ARM (ACSEL true (AR 2) (R (AR 4)) (R (AR 6)) (AR 8));
  (* 27 *) MOV (R (AR 7)) (M (AR 0) 16);
  (* 27 *) MOV (R (AR 8)) (M (AR 0) 24);
  (* 28 *) ARM (ACSEL false (AR 2) (R (AR 3)) (R (AR 5)) (AR 9));
  (* 29 *) ARM (ACSEL false (AR 2) (R (AR 4)) (R (AR 6)) (AR 10));
  (* 30 *) MOV (R (AR 9)) (M (AR 1) 16);
  (* 30 *) MOV (R (AR 10)) (M (AR 1) 24);
  (* 32 *) MOV (M (AR 0) 32) (R (AR 3));
  (* 32 *) MOV (M (AR 0) 40) (R (AR 4));
  (* 33 *) MOV (M (AR 1) 32) (R (AR 5));
  (* 33 *) MOV (M (AR 1) 40) (R (AR 6));
  (* 34 *) ARM (ACSEL true (AR 2) (R (AR 3)) (R (AR 5)) (AR 7));
  (* 35 *) ARM (ACSEL true (AR 2) (R (AR 4)) (R (AR 6)) (AR 8));
  (* 36 *) MOV (R (AR 7)) (M (AR 0) 32);
  (* 36 *) MOV (R (AR 8)) (M (AR 0) 40);
  (* 37 *) ARM (ACSEL false (AR 2) (R (AR 3)) (R (AR 5)) (AR 9));
  (* 38 *) ARM (ACSEL false (AR 2) (R (AR 4)) (R (AR 6)) (AR 10));
  (* 39 *) MOV (R (AR 9)) (M (AR 1) 32);
  (* 39 *) MOV (R (AR 10)) (M (AR 1) 40);
  (* 41 *) MOV (M (AR 0) 48) (R (AR 3));
  (* 41 *) MOV (M (AR 0) 56) (R (AR 4));
  (* 42 *) MOV (M (AR 1) 48) (R (AR 5));
  (* 42 *) MOV (M (AR 1) 56) (R (AR 6));
  (* 43 *) ARM (ACSEL true (AR 2) (R (AR 3)) (R (AR 5)) (AR 7));
  (* 44 *) ARM (ACSEL true (AR 2) (R (AR 4)) (R (AR 6)) (AR 8));
  (* 45 *) MOV (R (AR 7)) (M (AR 0) 48);
  (* 45 *) MOV (R (AR 8)) (M (AR 0) 56);
  (* 46 *) ARM (ACSEL false (AR 2) (R (AR 3)) (R (AR 5)) (AR 9));
  (* 47 *) ARM (ACSEL false (AR 2) (R (AR 4)) (R (AR 6)) (AR 10));
  (* 48 *) MOV (R (AR 9)) (M (AR 1) 48);
  (* 48 *) MOV (R (AR 10)) (M (AR 1) 56)].
(* addP503, arith_arm64.s from line 52, frame of 0 bytes *)
Definition addP503Arm : list instr := [
  (* 53 *) MOV (A 0) (R (AR 2));
  (* 54 *) MOV (A 8) (R (AR 0));
  (* 55 *) MOV (A 16) (R (AR 1));
  (* 59 *) MOV (M (AR 0) 0) (R (AR 3));
  (* 59 *) MOV (M (AR 0) 8) (R (AR 4));
  (* 60 *) MOV (M (AR 1) 0) (R (AR 11));
  (* 60 *) MOV (M (AR 1) 8) (R (AR 12));
  (* 61 *) MOV (M (AR 0) 16) (R (AR 5));
  (* 61 *) MOV (M (AR 0) 24) (R (AR 6));
  (* 62 *) MOV (M (AR 1) 16) (R (AR 13));
  (* 62 *) MOV (M (AR 1) 24) (R (AR 14));
  (* 63 *) ARM (AADD false true (R (AR 11)) (R (AR 3)) (AR 3));
  (* 64 *) ARM (AADD true true (R (AR 12)) (R (AR 4)) (AR 4));
  (* 65 *) ARM (AADD true true (R (AR 13)) (R (AR 5)) (AR 5));
  (* 66 *) ARM (AADD true true (R (AR 14)) (R (AR 6)) (AR 6));
  (* 68 *) MOV (M (AR 0) 32) (R (AR 7));
  (* 68 *) MOV (M (AR 0) 40) (R (AR 8));
  (* 69 *) MOV (M (AR 1) 32) (R (AR 11));
  (* 69 *) MOV (M (AR 1) 40) (R (AR 12));
  (* 70 *) MOV (M (AR 0) 48) (R (AR 9));
  (* 70 *) MOV (M (AR 0) 56) (R (AR 10));
  (* 71 *) MOV (M (AR 1) 48) (R (AR 13));
  (* 71 *) MOV (M (AR 1) 56) (R (AR 14));
  (* 72 *) ARM (AADD true true (R (AR 11)) (R (AR 7)) (AR 7));
  (* 73 *) ARM (AADD true true (R (AR 12)) (R (AR 8)) (AR 8));
  (* 74 *) ARM (AADD true true (R (AR 13)) (R (AR 9)) (AR 9));
  (* 75 *) ARM (AADD true false (R (AR 14)) (R (AR 10)) (AR 10));
  (* 78 *) MOV (G 1 0) (R (AR 11));
  (* 78 *) MOV (G 1 8) (R (AR 12));
  (* 79 *) MOV (G 1 24) (R (AR 13));
  (* 79 *) MOV (G 1 32) (R (AR 14));
  (* 80 *) ARM (ASUB false true (R (AR 11)) (R (AR 3)) (AR 3));
  (* 81 *) ARM (ASUB true true (R (AR 12)) (R (AR 4)) (AR 4));
  (* 82 *) MOV (G 1 40) (R (AR 15));
  (* 82 *) MOV (G 1 48) (R (AR 16));
  (* 83 *) ARM (ASUB true true (R (AR 12)) (R (AR 5)) (AR 5));
  (* 84 *) ARM (ASUB true true (R (AR 13)) (R (AR 6)) (AR 6));
  (* 85 *) MOV (G 1 56) (R (AR 17));
  (* 86 *) ARM (ASUB true true (R (AR 14)) (R (AR 7)) (AR 7));
  (* 87 *) ARM (ASUB true true (R (AR 15)) (R (AR 8)) (AR 8));
  (* 88 *) ARM (ASUB true true (R (AR 16)) (R (AR 9)) (AR 9));
  (* 89 *) ARM (ASUB true true (R (AR 17)) (R (AR 10)) (AR 10));
  (* 90 *) ARM (ASUB true false (Imm 0) (Imm 0) (AR 19));
  (* 93 *) ARM (AAND (R (AR 19)) (R (AR 11)) (AR 11));
  (* 94 *) ARM (AAND (R (AR 19)) (R (AR 12)) (AR 12));
  (* 95 *) ARM (AAND (R (AR 19)) (R (AR 13)) (AR 13));
  (* 96 *) ARM (AAND (R (AR 19)) (R (AR 14)) (AR 14));
  (* 97 *) ARM (AAND (R (AR 19)) (R (AR 15)) (AR 15));
  (* 98 *) ARM (AAND (R (AR 19)) (R (AR 16)) (AR 16));
  (* 99 *) ARM (AAND (R (AR 19)) (R (AR 17)) (AR 17));
  (* 101 *) ARM (AADD false true (R (AR 11)) (R (AR 3)) (AR 3));
  (* 102 *) ARM (AADD true true (R (AR 12)) (R (AR 4)) (AR 4));
  (* 103 *) MOV (R (AR 3)) (M (AR 2) 0);
  (* 103 *) MOV (R (AR 4)) (M (AR 2) 8);
  (* 104 *) ARM (AADD true true (R (AR 12)) (R (AR 5)) (AR 5));
  (* 105 *) ARM (AADD true true (R (AR 13)) (R (AR 6)) (AR 6));
  (* 106 *) MOV (R (AR 5)) (M (AR 2) 16);
  (* 106 *) MOV (R (AR 6)) (M (AR 2) 24);
  (* 107 *) ARM (AADD true true (R (AR 14)) (R (AR 7)) (AR 7));
  (* 108 *) ARM (AADD true true (R (AR 15)) (R (AR 8)) (AR 8));
  (* 109 *) MOV (R (AR 7)) (M (AR 2) 32);
  (* 109 *) MOV (R (AR 8)) (M (AR 2) 40);
  (* 110 *) ARM (AADD true true (R (AR 16)) (R (AR 9)) (AR 9));
  (* 111 *) ARM (AADD true false (R (AR 17)) (R (AR 10)) (AR 10));
  (* 112 *) MOV (R (AR 9)) (M (AR 2) 48);
  (* 112 *) MOV (R (AR 10)) (M (AR 2) 56)].
(* subP503, arith_arm64.s from line 116, frame of 0 bytes *)
Definition subP503Arm : list instr := [
  (* 117 *) MOV (A 0) (R (AR 2));
  (* 118 *) MOV (A 8) (R (AR 0));
  (* 119 *) MOV (A 16) (R (AR 1));
  (* 123 *) MOV (M (AR 0) 0) (R (AR 3));
  (* 123 *) MOV (M (AR 0) 8) (R (AR 4));
  (* 124 *) MOV (M (AR 1) 0) (R (AR 11));
  (* 124 *) MOV (M (AR 1) 8) (R (AR 12));
  (* 125 *) MOV (M (AR 0) 16) (R (AR 5));
  (* 125 *) MOV (M (AR 0) 24) (R (AR 6));
  (* 126 *) MOV (M (AR 1) 16) (R (AR 13));
  (* 126 *) MOV (M (AR 1) 24) (R (AR 14));
  (* 127 *) ARM (ASUB false true (R (AR 11)) (R (AR 3)) (AR 3));
  (* 128 *) ARM (ASUB true true (R (AR 12)) (R (AR 4)) (AR 4));
  (* 129 *) ARM (ASUB true true (R (AR 13)) (R (AR 5)) (AR 5));
  (* 130 *) ARM (ASUB true true (R (AR 14)) (R (AR 6)) (AR 6));
  (* 132 *) MOV (M (AR 0) 32) (R (AR 7));
  (* 132 *) MOV (M (AR 0) 40) (R (AR 8));
  (* 133 *) MOV (M (AR 1) 32) (R (AR 11));
  (* 133 *) MOV (M (AR 1) 40) (R (AR 12));
  (* 134 *) MOV (M (AR 0) 48) (R (AR 9));
  (* 134 *) MOV (M (AR 0) 56) (R (AR 10));
  (* 135 *) MOV (M (AR 1) 48) (R (AR 13));
  (* 135 *) MOV (M (AR 1) 56) (R (AR 14));
  (* 136 *) ARM (ASUB true true (R (AR 11)) (R (AR 7)) (AR 7));
  (* 137 *) ARM (ASUB true true (R (AR 12)) (R (AR 8)) (AR 8));
  (* 138 *) ARM (ASUB true true (R (AR 13)) (R (AR 9)) (AR 9));
  (* 139 *) ARM (ASUB true true (R (AR 14)) (R (AR 10)) (AR 10));
  (* 140 *) ARM (ASUB true false (Imm 0) (Imm 0) (AR 19));
  (* 143 *) MOV (G 1 0) (R (AR 11));
  (* 143 *) MOV (G 1 8) (R (AR 12));
  (* 144 *) MOV (G 1 24) (R (AR 13));
  (* 144 *) MOV (G 1 32) (R (AR 14));
  (* 145 *) ARM (AAND (R (AR 19)) (R (AR 11)) (AR 11));
  (* 146 *) ARM (AAND (R (AR 19)) (R (AR 12)) (AR 12));
  (* 147 *) MOV (G 1 40) (R (AR 15));
  (* 147 *) MOV (G 1 48) (R (AR 16));
  (* 148 *) ARM (AAND (R (AR 19)) (R (AR 13)) (AR 13));
  (* 149 *) ARM (AAND (R (AR 19)) (R (AR 14)) (AR 14));
  (* 150 *) MOV (G 1 56) (R (AR 17));
  (* 151 *) ARM (AAND (R (AR 19)) (R (AR 15)) (AR 15));
  (* 152 *) ARM (AAND (R (AR 19)) (R (AR 16)) (AR 16));
  (* 153 *) ARM (AAND (R (AR 19)) (R (AR 17)) (AR 17));
  (* 155 *) ARM (AADD false true (R (AR 11)) (R (AR 3)) (AR 3));
  (* 156 *) ARM (AADD true true (R (AR 12)) (R (AR 4)) (AR 4));
  (* 157 *) MOV (R (AR 3)) (M (AR 2) 0);
  (* 157 *) MOV (R (AR 4)) (M (AR 2) 8);
  (* 158 *) ARM (AADD true true (R (AR 12)) (R (AR 5)) (AR 5));
  (* 159 *) ARM (AADD true true (R (AR 13)) (R (AR 6)) (AR 6));
  (* 160 *) MOV (R (AR 5)) (M (AR 2) 16);
  (* 160 *) MOV (R (AR 6)) (M (AR 2) 24);
  (* 161 *) ARM (AADD true true (R (AR 14)) (R (AR 7)) (AR 7));
  (* 162 *) ARM (AADD true true (R (AR 15)) (R (AR 8)) (AR 8));
  (* 163 *) MOV (R (AR 7)) (M (AR 2) 32);
  (* 163 *) MOV (R (AR 8)) (M (AR 2) 40);
  (* 164 *) ARM (AADD true true (R (AR 16)) (R (AR 9)) (AR 9));
  (* 165 *) ARM (AADD true false (R (AR 17)) (R (AR 10)) (AR 10));
  (* 166 *) MOV (R (AR 9)) (M (AR 2) 48);
  (* 166 *) MOV (R (AR 10)) (M (AR 2) 56)].
(* adlP503, arith_arm64.s from line 170, frame of 0 bytes *)
Definition adlP503Arm : list instr := [
  (* 171 *) MOV (A 0) (R (AR 2));
  (* 172 *) MOV (A 8) (R (AR 0));
  (* 173 *) MOV (A 16) (R (AR 1));
  (* 175 *) MOV (M (AR 0) 0) (R (AR 3));
  (* 175 *) MOV (M (AR 0) 8) (R (AR 4));
  (* 176 *) MOV (M (AR 1) 0) (R (AR 11));
  (* 176 *) MOV (M (AR 1) 8) (R (AR 12));
  (* 177 *) MOV (M (AR 0) 16) (R (AR 5));
  (* 177 *) MOV (M (AR 0) 24) (R (AR 6));
  (* 178 *) MOV (M (AR 1) 16) (R (AR 13));
  (* 178 *) MOV (M (AR 1) 24) (R (AR 14));
  (* 179 *) ARM (AADD false true (R (AR 11)) (R (AR 3)) (AR 3));
  (* 180 *) ARM (AADD true true (R (AR 12)) (R (AR 4)) (AR 4));
  (* 181 *) MOV (R (AR 3)) (M (AR 2) 0);
  (* 181 *) MOV (R (AR 4)) (M (AR 2) 8);
  (* 182 *) ARM (AADD true true (R (AR 13)) (R (AR 5)) (AR 5));
  (* 183 *) ARM (AADD true true (R (AR 14)) (R (AR 6)) (AR 6));
  (* 184 *) MOV (R (AR 5)) (M (AR 2) 16);
  (* 184 *) MOV (R (AR 6)) (M (AR 2) 24);
  (* 186 *) MOV (M (AR 0) 32) (R (AR 7));
  (* 186 *) MOV (M (AR 0) 40) (R (AR 8));
  (* 187 *) MOV (M (AR 1) 32) (R (AR 11));
  (* 187 *) MOV (M (AR 1) 40) (R (AR 12));
  (* 188 *) MOV (M (AR 0) 48) (R (AR 9));
  (* 188 *) MOV (M (AR 0) 56) (R (AR 10));
  (* 189 *) MOV (M (AR 1) 48) (R (AR 13));
  (* 189 *) MOV (M (AR 1) 56) (R (AR 14));
  (* 190 *) ARM (AADD true true (R (AR 11)) (R (AR 7)) (AR 7));
  (* 191 *) ARM (AADD true true (R (AR 12)) (R (AR 8)) (AR 8));
  (* 192 *) MOV (R (AR 7)) (M (AR 2) 32);
  (* 192 *) MOV (R (AR 8)) (M (AR 2) 40);
  (* 193 *) ARM (AADD true true (R (AR 13)) (R (AR 9)) (AR 9));
  (* 194 *) ARM (AADD true true (R (AR 14)) (R (AR 10)) (AR 10));
  (* 195 *) MOV (R (AR 9)) (M (AR 2) 48);
  (* 195 *) MOV (R (AR 10)) (M (AR 2) 56);
  (* 197 *) MOV (M (AR 0) 64) (R (AR 3));
  (* 197 *) MOV (M (AR 0) 72) (R (AR 4));
  (* 198 *) MOV (M (AR 1) 64) (R (AR 11));
  (* 198 *) MOV (M (AR 1) 72) (R (AR 12));
  (* 199 *) MOV (M (AR 0) 80) (R (AR 5));
  (* 199 *) MOV (M (AR 0) 88) (R (AR 6));
  (* 200 *) MOV (M (AR 1) 80) (R (AR 13));
  (* 200 *) MOV (M (AR 1) 88) (R (AR 14));
  (* 201 *) ARM (AADD true true (R (AR 11)) (R (AR 3)) (AR 3));
  (* 202 *) ARM (AADD true true (R (AR 12)) (R (AR 4)) (AR 4));
  (* 203 *) MOV (R (AR 3)) (M (AR 2) 64);
  (* 203 *) MOV (R (AR 4)) (M (AR 2) 72);
  (* 204 *) ARM (AADD true true (R (AR 13)) (R (AR 5)) (AR 5));
  (* 205 *) ARM (AADD true true (R (AR 14)) (R (AR 6)) (AR 6));
  (* 206 *) MOV (R (AR 5)) (M (AR 2) 80);
  (* 206 *) MOV (R (AR 6)) (M (AR 2) 88);
  (* 208 *) MOV (M (AR 0) 96) (R (AR 7));
  (* 208 *) MOV (M (AR 0) 104) (R (AR 8));
  (* 209 *) MOV (M (AR 1) 96) (R (AR 11));
  (* 209 *) MOV (M (AR 1) 104) (R (AR 12));
  (* 210 *) MOV (M (AR 0) 112) (R (AR 9));
  (* 210 *) MOV (M (AR 0) 120) (R (AR 10));
  (* 211 *) MOV (M (AR 1) 112) (R (AR 13));
  (* 211 *) MOV (M (AR 1) 120) (R (AR 14));
  (* 212 *) ARM (AADD true true (R (AR 11)) (R (AR 7)) (AR 7));
  (* 213 *) ARM (AADD true true (R (AR 12)) (R (AR 8)) (AR 8));
  (* 214 *) MOV (R (AR 7)) (M (AR 2) 96);
  (* 214 *) MOV (R (AR 8)) (M (AR 2) 104);
  (* 215 *) ARM (AADD true true (R (AR 13)) (R (AR 9)) (AR 9));
  (* 216 *) ARM (AADD true false (R (AR 14)) (R (AR 10)) (AR 10));
  (* 217 *) MOV (R (AR 9)) (M (AR 2) 112);
  (* 217 *) MOV (R (AR 10)) (M (AR 2) 120)].
(* sulP503, arith_arm64.s from line 221, frame of 0 bytes *)
Definition sulP503Arm : list instr := [
  (* 222 *) MOV (A 0) (R (AR 2));
  (* 223 *) MOV (A 8) (R (AR 0));
  (* 224 *) MOV (A 16) (R (AR 1));
  (* 226 *) MOV (M (AR 0) 0) (R (AR 3));
  (* 226 *) MOV (M (AR 0) 8) (R (AR 4));
  (* 227 *) MOV (M (AR 1) 0) (R (AR 11));
  (* 227 *) MOV (M (AR 1) 8) (R (AR 12));
  (* 228 *) MOV (M (AR 0) 16) (R (AR 5));
  (* 228 *) MOV (M (AR 0) 24) (R (AR 6));
  (* 229 *) MOV (M (AR 1) 16) (R (AR 13));
  (* 229 *) MOV (M (AR 1) 24) (R (AR 14));
  (* 230 *) ARM (ASUB false true (R (AR 11)) (R (AR 3)) (AR 3));
  (* 231 *) ARM (ASUB true true (R (AR 12)) (R (AR 4)) (AR 4));
  (* 232 *) MOV (R (AR 3)) (M (AR 2) 0);
  (* 232 *) MOV (R (AR 4)) (M (AR 2) 8);
  (* 233 *) ARM (ASUB true true (R (AR 13)) (R (AR 5)) (AR 5));
  (* 234 *) ARM (ASUB true true (R (AR 14)) (R (AR 6)) (AR 6));
  (* 235 *) MOV (R (AR 5)) (M (AR 2) 16);
  (* 235 *) MOV (R (AR 6)) (M (AR 2) 24);
  (* 237 *) MOV (M (AR 0) 32) (R (AR 7));
  (* 237 *) MOV (M (AR 0) 40) (R (AR 8));
  (* 238 *) MOV (M (AR 1) 32) (R (AR 11));
  (* 238 *) MOV (M (AR 1) 40) (R (AR 12));
  (* 239 *) MOV (M (AR 0) 48) (R (AR 9));
  (* 239 *) MOV (M (AR 0) 56) (R (AR 10));
  (* 240 *) MOV (M (AR 1) 48) (R (AR 13));
  (* 240 *) MOV (M (AR 1) 56) (R (AR 14));
  (* 241 *) ARM (ASUB true true (R (AR 11)) (R (AR 7)) (AR 7));
  (* 242 *) ARM (ASUB true true (R (AR 12)) (R (AR 8)) (AR 8));
  (* 243 *) MOV (R (AR 7)) (M (AR 2) 32);
  (* 243 *) MOV (R (AR 8)) (M (AR 2) 40);
  (* 244 *) ARM (ASUB true true (R (AR 13)) (R (AR 9)) (AR 9));
  (* 245 *) ARM (ASUB true true (R (AR 14)) (R (AR 10)) (AR 10));
  (* 246 *) MOV (R (AR 9)) (M (AR 2) 48);
  (* 246 *) MOV (R (AR 10)) (M (AR 2) 56);
  (* 248 *) MOV (M (AR 0) 64) (R (AR 3));
  (* 248 *) MOV (M (AR 0) 72) (R (AR 4));
  (* 249 *) MOV (M (AR 1) 64) (R (AR 11));
  (* 249 *) MOV (M (AR 1) 72) (R (AR 12));
  (* 250 *) MOV (M (AR 0) 80) (R (AR 5));
  (* 250 *) MOV (M (AR 0) 88) (R (AR 6));
  (* 251 *) MOV (M (AR 1) 80) (R (AR 13));
  (* 251 *) MOV (M (AR 1) 88) (R (AR 14));
  (* 252 *) ARM (ASUB true true (R (AR 11)) (R (AR 3)) (AR 3));
  (* 253 *) ARM (ASUB true true (R (AR 12)) (R (AR 4)) (AR 4));
  (* 254 *) ARM (ASUB true true (R (AR 13)) (R (AR 5)) (AR 5));
  (* 255 *) ARM (ASUB true true (R (AR 14)) (R (AR 6)) (AR 6));
  (* 257 *) MOV (M (AR 0) 96) (R (AR 7));
  (* 257 *) MOV (M (AR 0) 104) (R (AR 8));
  (* 258 *) MOV (M (AR 1) 96) (R (AR 11));
  (* 258 *) MOV (M (AR 1) 104) (R (AR 12));
  (* 259 *) MOV (M (AR 0) 112) (R (AR 9));
  (* 259 *) MOV (M (AR 0) 120) (R (AR 10));
  (* 260 *) MOV (M (AR 1) 112) (R (AR 13));
  (* 260 *) MOV (M (AR 1) 120) (R (AR 14));
  (* 261 *) ARM (ASUB true true (R (AR 11)) (R (AR 7)) (AR 7));
  (* 262 *) ARM (ASUB true true (R (AR 12)) (R (AR 8)) (AR 8));
  (* 263 *) ARM (ASUB true true (R (AR 13)) (R (AR 9)) (AR 9));
  (* 264 *) ARM (ASUB true true (R (AR 14)) (R (AR 10)) (AR 10));
  (* 265 *) ARM (ASUB true false (Imm 0) (Imm 0) (AR 15));
  (* 268 *) MOV (G 0 16) (R (AR 16));
  (* 268 *) MOV (G 0 24) (R (AR 17));
  (* 269 *) MOV (G 0 32) (R (AR 19));
  (* 269 *) MOV (G 0 40) (R (AR 20));
  (* 270 *) ARM (AAND (R (AR 15)) (R (AR 16)) (AR 16));
  (* 271 *) ARM (AAND (R (AR 15)) (R (AR 17)) (AR 17));
  (* 272 *) MOV (G 0 48) (R (AR 21));
  (* 272 *) MOV (G 0 56) (R (AR 22));
  (* 273 *) ARM (AAND (R (AR 15)) (R (AR 19)) (AR 19));
  (* 274 *) ARM (AAND (R (AR 15)) (R (AR 20)) (AR 20));
  (* 275 *) ARM (AAND (R (AR 15)) (R (AR 21)) (AR 21));
  (* 276 *) ARM (AAND (R (AR 15)) (R (AR 22)) (AR 22));
  (* 278 *) ARM (AADD false true (R (AR 16)) (R (AR 3)) (AR 3));
  (* 279 *) ARM (AADD true true (R (AR 16)) (R (AR 4)) (AR 4));
  (* 280 *) MOV (R (AR 3)) (M (AR 2) 64);
  (* 280 *) MOV (R (AR 4)) (M (AR 2) 72);
  (* 281 *) ARM (AADD true true (R (AR 16)) (R (AR 5)) (AR 5));
  (* 282 *) ARM (AADD true true (R (AR 17)) (R (AR 6)) (AR 6));
  (* 283 *) MOV (R (AR 5)) (M (AR 2) 80);
  (* 283 *) MOV (R (AR 6)) (M (AR 2) 88);
  (* 284 *) ARM (AADD true true (R (AR 19)) (R (AR 7)) (AR 7));
  (* 285 *) ARM (AADD true true (R (AR 20)) (R (AR 8)) (AR 8));
  (* 286 *) MOV (R (AR 7)) (M (AR 2) 96);
  (* 286 *) MOV (R (AR 8)) (M (AR 2) 104);
  (* 287 *) ARM (AADD true true (R (AR 21)) (R (AR 9)) (AR 9));
  (* 288 *) ARM (AADD true false (R (AR 22)) (R (AR 10)) (AR 10));
  (* 289 *) MOV (R (AR 9)) (M (AR 2) 112);
  (* 289 *) MOV (R (AR 10)) (M (AR 2) 120)].
(* mulP503, arith_arm64.s from line 385, frame of 0 bytes *)
Definition mulP503Arm : list instr := [
  (* 386 *) MOV (A 0) (R (AR 2));
  (* 387 *) MOV (A 8) (R (AR 0));
  (* 388 *) MOV (A 16) (R (AR 1));
  (* 392 *) MOV (M (AR 0) 0) (R (AR 3));
  (* 392 *) MOV (M (AR 0) 8) (R (AR 4));
  (* 393 *) MOV (M (AR 0) 32) (R (AR 7));
  (* 393 *) MOV (M (AR 0) 40) (R (AR 8));
  (* 394 *) ARM (AADD false true (R (AR 3)) (R (AR 7)) (AR 25));
  (* 395 *) ARM (AADD true true (R (AR 4)) (R (AR 8)) (AR 26));
  (* 396 *) MOV (M (AR 0) 16) (R (AR 5));
  (* 396 *) MOV (M (AR 0) 24) (R (AR 6));
  (* 397 *) MOV (M (AR 0) 48) (R (AR 9));
  (* 397 *) MOV (M (AR 0) 56) (R (AR 10));
  (* 398 *) ARM (AADD true true (R (AR 5)) (R (AR 9)) (AR 27));
  (* 399 *) ARM (AADD true true (R (AR 6)) (R (AR 10)) (AR 29));
  (* 400 *) ARM (AADD true false (Imm 0) (Imm 0) (AR 7));
  (* 404 *) MOV (M (AR 1) 0) (R (AR 11));
  (* 404 *) MOV (M (AR 1) 8) (R (AR 12));
  (* 405 *) MOV (M (AR 1) 32) (R (AR 15));
  (* 405 *) MOV (M (AR 1) 40) (R (AR 16));
  (* 406 *) ARM (AADD false true (R (AR 15)) (R (AR 11)) (AR 11));
  (* 407 *) ARM (AADD true true (R (AR 16)) (R (AR 12)) (AR 12));
  (* 408 *) MOV (M (AR 1) 16) (R (AR 13));
  (* 408 *) MOV (M (AR 1) 24) (R (AR 14));
  (* 409 *) MOV (M (AR 1) 48) (R (AR 17));
  (* 409 *) MOV (M (AR 1) 56) (R (AR 19));
  (* 410 *) ARM (AADD true true (R (AR 17)) (R (AR 13)) (AR 13));
  (* 411 *) ARM (AADD true true (R (AR 19)) (R (AR 14)) (AR 14));
  (* 412 *) ARM (AADD true false (Imm 0) (Imm 0) (AR 8));
  (* 415 *) ARM (ASUB false false (R (AR 7)) (Imm 0) (AR 9));
  (* 416 *) ARM (ASUB false false (R (AR 8)) (Imm 0) (AR 10));
  (* 417 *) ARM (AAND (R (AR 8)) (R (AR 7)) (AR 7));
  (* 420 *) ARM (AAND (R (AR 9)) (R (AR 11)) (AR 15));
  (* 421 *) ARM (AAND (R (AR 9)) (R (AR 12)) (AR 16));
  (* 422 *) ARM (AAND (R (AR 9)) (R (AR 13)) (AR 17));
  (* 423 *) ARM (AAND (R (AR 9)) (R (AR 14)) (AR 19));
  (* 426 *) ARM (AAND (R (AR 10)) (R (AR 25)) (AR 20));
  (* 427 *) ARM (AAND (R (AR 10)) (R (AR 26)) (AR 21));
  (* 428 *) ARM (AAND (R (AR 10)) (R (AR 27)) (AR 22));
  (* 429 *) ARM (AAND (R (AR 10)) (R (AR 29)) (AR 23));
  (* 432 *) ARM (AADD false true (R (AR 20)) (R (AR 15)) (AR 15));
  (* 433 *) ARM (AADD true true (R (AR 21)) (R (AR 16)) (AR 16));
  (* 434 *) ARM (AADD true true (R (AR 22)) (R (AR 17)) (AR 17));
  (* 435 *) ARM (AADD true true (R (AR 23)) (R (AR 19)) (AR 19));
  (* 436 *) ARM (AADD true false (Imm 0) (R (AR 7)) (AR 7));
  (* 439 *) MOV (R (AR 25)) (M (AR 2) 0);
  (* 439 *) MOV (R (AR 26)) (M (AR 2) 8);
  (* 442 *) ARM (AADD false true (R (AR 27)) (R (AR 25)) (AR 25));
  (* 442 *) ARM (AADD true true (R (AR 29)) (R (AR 26)) (AR 26));
  (* 442 *) ARM (AADD true true (Imm 0) (Imm 0) (AR 0));
  (* 442 *) ARM (AADD false true (R (AR 13)) (R (AR 11)) (AR 23));
  (* 442 *) ARM (AADD true true (R (AR 14)) (R (AR 12)) (AR 1));
  (* 442 *) ARM (AADD true false (Imm 0) (Imm 0) (AR 24));
  (* 442 *) ARM (ASUB false false (R (AR 0)) (Imm 0) (AR 10));
  (* 442 *) ARM (ASUB false false (R (AR 24)) (Imm 0) (AR 20));
  (* 442 *) ARM (AAND (R (AR 24)) (R (AR 0)) (AR 0));
  (* 442 *) ARM (AAND (R (AR 10)) (R (AR 23)) (AR 8));
  (* 442 *) ARM (AAND (R (AR 10)) (R (AR 1)) (AR 9));
  (* 442 *) ARM (AAND (R (AR 20)) (R (AR 25)) (AR 21));
  (* 442 *) ARM (AAND (R (AR 20)) (R (AR 26)) (AR 22));
  (* 442 *) ARM (AMUL (R (AR 23)) (R (AR 25)) (AR 10));
  (* 442 *) ARM (AMUL (R (AR 1)) (R (AR 25)) (AR 20));
  (* 442 *) ARM (AADD false true (R (AR 21)) (R (AR 8)) (AR 8));
  (* 442 *) ARM (AUMULH (R (AR 1)) (R (AR 25)) (AR 21));
  (* 442 *) ARM (AADD true true (R (AR 22)) (R (AR 9)) (AR 9));
  (* 442 *) ARM (AUMULH (R (AR 23)) (R (AR 25)) (AR 22));
  (* 442 *) ARM (AADD true false (Imm 0) (R (AR 0)) (AR 0));
  (* 442 *) ARM (AMUL (R (AR 26)) (R (AR 23)) (AR 25));
  (* 442 *) ARM (AUMULH (R (AR 26)) (R (AR 23)) (AR 23));
  (* 442 *) ARM (AADD false true (R (AR 22)) (R (AR 20)) (AR 20));
  (* 442 *) ARM (AADD true false (Imm 0) (R (AR 21)) (AR 21));
  (* 442 *) ARM (AMUL (R (AR 1)) (R (AR 26)) (AR 24));
  (* 442 *) ARM (AUMULH (R (AR 1)) (R (AR 26)) (AR 1));
  (* 442 *) ARM (AADD false true (R (AR 25)) (R (AR 20)) (AR 20));
  (* 442 *) ARM (AADD true true (R (AR 23)) (R (AR 21)) (AR 21));
  (* 442 *) ARM (AADD true false (Imm 0) (Imm 0) (AR 22));
  (* 442 *) ARM (AADD false true (R (AR 24)) (R (AR 21)) (AR 21));
  (* 442 *) ARM (AADD true false (R (AR 1)) (R (AR 22)) (AR 22));
  (* 442 *) MOV (M (AR 2) 0) (R (AR 25));
  (* 442 *) MOV (M (AR 2) 8) (R (AR 26));
  (* 442 *) ARM (AADD false true (R (AR 8)) (R (AR 21)) (AR 21));
  (* 442 *) ARM (AUMULH (R (AR 11)) (R (AR 25)) (AR 24));
  (* 442 *) ARM (AUMULH (R (AR 12)) (R (AR 25)) (AR 1));
  (* 442 *) ARM (AADD true true (R (AR 9)) (R (AR 22)) (AR 22));
  (* 442 *) ARM (AMUL (R (AR 11)) (R (AR 25)) (AR 8));
  (* 442 *) ARM (AMUL (R (AR 12)) (R (AR 25)) (AR 9));
  (* 442 *) ARM (AADD true false (Imm 0) (R (AR 0)) (AR 0));
  (* 442 *) ARM (AMUL (R (AR 26)) (R (AR 11)) (AR 25));
  (* 442 *) ARM (AUMULH (R (AR 26)) (R (AR 11)) (AR 11));
  (* 442 *) ARM (AADD false true (R (AR 24)) (R (AR 9)) (AR 9));
  (* 442 *) ARM (AADD true false (Imm 0) (R (AR 1)) (AR 1));
  (* 442 *) ARM (AMUL (R (AR 12)) (R (AR 26)) (AR 23));
  (* 442 *) ARM (AUMULH (R (AR 12)) (R (AR 26)) (AR 12));
  (* 442 *) ARM (AADD false true (R (AR 25)) (R (AR 9)) (AR 9));
  (* 442 *) ARM (AADD true true (R (AR 11)) (R (AR 1)) (AR 1));
  (* 442 *) ARM (AADD true false (Imm 0) (Imm 0) (AR 24));
  (* 442 *) ARM (AADD false true (R (AR 23)) (R (AR 1)) (AR 1));
  (* 442 *) ARM (AADD true false (R (AR 12)) (R (AR 24)) (AR 24));
  (* 442 *) ARM (AMUL (R (AR 13)) (R (AR 27)) (AR 25));
  (* 442 *) ARM (AUMULH (R (AR 13)) (R (AR 27)) (AR 11));
  (* 442 *) ARM (ASUB false true (R (AR 8)) (R (AR 10)) (AR 10));
  (* 442 *) ARM (ASUB true true (R (AR 9)) (R (AR 20)) (AR 20));
  (* 442 *) ARM (ASUB true true (R (AR 1)) (R (AR 21)) (AR 21));
  (* 442 *) ARM (AMUL (R (AR 14)) (R (AR 27)) (AR 26));
  (* 442 *) ARM (AUMULH (R (AR 14)) (R (AR 27)) (AR 23));
  (* 442 *) ARM (ASUB true true (R (AR 24)) (R (AR 22)) (AR 22));
  (* 442 *) ARM (ASUB true true (Imm 0) (R (AR 0)) (AR 0));
  (* 442 *) ARM (AMUL (R (AR 29)) (R (AR 13)) (AR 27));
  (* 442 *) ARM (AUMULH (R (AR 29)) (R (AR 13)) (AR 13));
  (* 442 *) ARM (AADD false true (R (AR 11)) (R (AR 26)) (AR 26));
  (* 442 *) ARM (AADD true false (Imm 0) (R (AR 23)) (AR 23));
  (* 442 *) ARM (AMUL (R (AR 14)) (R (AR 29)) (AR 12));
  (* 442 *) ARM (AUMULH (R (AR 14)) (R (AR 29)) (AR 14));
  (* 442 *) ARM (AADD false true (R (AR 27)) (R (AR 26)) (AR 26));
  (* 442 *) ARM (AADD true true (R (AR 13)) (R (AR 23)) (AR 23));
  (* 442 *) ARM (AADD true false (Imm 0) (Imm 0) (AR 11));
  (* 442 *) ARM (AADD false true (R (AR 12)) (R (AR 23)) (AR 23));
  (* 442 *) ARM (AADD true false (R (AR 14)) (R (AR 11)) (AR 11));
  (* 442 *) ARM (ASUB false true (R (AR 25)) (R (AR 10)) (AR 10));
  (* 442 *) ARM (ASUB true true (R (AR 26)) (R (AR 20)) (AR 20));
  (* 442 *) ARM (ASUB true true (R (AR 23)) (R (AR 21)) (AR 21));
  (* 442 *) ARM (ASUB true true (R (AR 11)) (R (AR 22)) (AR 22));
  (* 442 *) ARM (ASUB true true (Imm 0) (R (AR 0)) (AR 0));
  (* 442 *) ARM (AADD false true (R (AR 1)) (R (AR 10)) (AR 10));
  (* 442 *) ARM (AADD true true (R (AR 24)) (R (AR 20)) (AR 20));
  (* 442 *) ARM (AADD true true (R (AR 25)) (R (AR 21)) (AR 21));
  (* 442 *) ARM (AADD true true (R (AR 26)) (R (AR 22)) (AR 22));
  (* 442 *) ARM (AADD true true (R (AR 0)) (R (AR 23)) (AR 23));
  (* 442 *) ARM (AADD true false (R (AR 11)) (Imm 0) (AR 24));
  (* 444 *) MOV (A 8) (R (AR 0));
  (* 445 *) MOV (A 16) (R (AR 1));
  (* 447 *) ARM (AADD false true (R (AR 21)) (R (AR 15)) (AR 15));
  (* 448 *) ARM (AADD true true (R (AR 22)) (R (AR 16)) (AR 16));
  (* 449 *) ARM (AADD true true (R (AR 23)) (R (AR 17)) (AR 17));
  (* 450 *) ARM (AADD true true (R (AR 24)) (R (AR 19)) (AR 19));
  (* 451 *) ARM (AADD true false (Imm 0) (R (AR 7)) (AR 7));
  (* 454 *) MOV (M (AR 1) 0) (R (AR 11));
  (* 454 *) MOV (M (AR 1) 8) (R (AR 12));
  (* 455 *) MOV (M (AR 1) 16) (R (AR 13));
  (* 455 *) MOV (M (AR 1) 24) (R (AR 14));
  (* 458 *) ARM (AADD false true (R (AR 5)) (R (AR 3)) (AR 3));
  (* 458 *) ARM (AADD true true (R (AR 6)) (R (AR 4)) (AR 4));
  (* 458 *) ARM (AADD true true (Imm 0) (Imm 0) (AR 1));
  (* 458 *) ARM (AADD false true (R (AR 13)) (R (AR 11)) (AR 27));
  (* 458 *) ARM (AADD true true (R (AR 14)) (R (AR 12)) (AR 2));
  (* 458 *) ARM (AADD true false (Imm 0) (Imm 0) (AR 29));
  (* 458 *) ARM (ASUB false false (R (AR 1)) (Imm 0) (AR 23));
  (* 458 *) ARM (ASUB false false (R (AR 29)) (Imm 0) (AR 24));
  (* 458 *) ARM (AAND (R (AR 29)) (R (AR 1)) (AR 1));
  (* 458 *) ARM (AAND (R (AR 23)) (R (AR 27)) (AR 21));
  (* 458 *) ARM (AAND (R (AR 23)) (R (AR 2)) (AR 22));
  (* 458 *) ARM (AAND (R (AR 24)) (R (AR 3)) (AR 25));
  (* 458 *) ARM (AAND (R (AR 24)) (R (AR 4)) (AR 26));
  (* 458 *) ARM (AMUL (R (AR 27)) (R (AR 3)) (AR 23));
  (* 458 *) ARM (AMUL (R (AR 2)) (R (AR 3)) (AR 24));
  (* 458 *) ARM (AADD false true (R (AR 25)) (R (AR 21)) (AR 21));
  (* 458 *) ARM (AUMULH (R (AR 2)) (R (AR 3)) (AR 25));
  (* 458 *) ARM (AADD true true (R (AR 26)) (R (AR 22)) (AR 22));
  (* 458 *) ARM (AUMULH (R (AR 27)) (R (AR 3)) (AR 26));
  (* 458 *) ARM (AADD true false (Imm 0) (R (AR 1)) (AR 1));
  (* 458 *) ARM (AMUL (R (AR 4)) (R (AR 27)) (AR 3));
  (* 458 *) ARM (AUMULH (R (AR 4)) (R (AR 27)) (AR 27));
  (* 458 *) ARM (AADD false true (R (AR 26)) (R (AR 24)) (AR 24));
  (* 458 *) ARM (AADD true false (Imm 0) (R (AR 25)) (AR 25));
  (* 458 *) ARM (AMUL (R (AR 2)) (R (AR 4)) (AR 29));
  (* 458 *) ARM (AUMULH (R (AR 2)) (R (AR 4)) (AR 2));
  (* 458 *) ARM (AADD false true (R (AR 3)) (R (AR 24)) (AR 24));
  (* 458 *) ARM (AADD true true (R (AR 27)) (R (AR 25)) (AR 25));
  (* 458 *) ARM (AADD true false (Imm 0) (Imm 0) (AR 26));
  (* 458 *) ARM (AADD false true (R (AR 29)) (R (AR 25)) (AR 25));
  (* 458 *) ARM (AADD true false (R (AR 2)) (R (AR 26)) (AR 26));
  (* 458 *) MOV (M (AR 0) 0) (R (AR 3));
  (* 458 *) MOV (M (AR 0) 8) (R (AR 4));
  (* 458 *) ARM (AADD false true (R (AR 21)) (R (AR 25)) (AR 25));
  (* 458 *) ARM (AUMULH (R (AR 11)) (R (AR 3)) (AR 29));
  (* 458 *) ARM (AUMULH (R (AR 12)) (R (AR 3)) (AR 2));
  (* 458 *) ARM (AADD true true (R (AR 22)) (R (AR 26)) (AR 26));
  (* 458 *) ARM (AMUL (R (AR 11)) (R (AR 3)) (AR 21));
  (* 458 *) ARM (AMUL (R (AR 12)) (R (AR 3)) (AR 22));
  (* 458 *) ARM (AADD true false (Imm 0) (R (AR 1)) (AR 1));
  (* 458 *) ARM (AMUL (R (AR 4)) (R (AR 11)) (AR 3));
  (* 458 *) ARM (AUMULH (R (AR 4)) (R (AR 11)) (AR 11));
  (* 458 *) ARM (AADD false true (R (AR 29)) (R (AR 22)) (AR 22));
  (* 458 *) ARM (AADD true false (Imm 0) (R (AR 2)) (AR 2));
  (* 458 *) ARM (AMUL (R (AR 12)) (R (AR 4)) (AR 27));
  (* 458 *) ARM (AUMULH (R (AR 12)) (R (AR 4)) (AR 12));
  (* 458 *) ARM (AADD false true (R (AR 3)) (R (AR 22)) (AR 22));
  (* 458 *) ARM (AADD true true (R (AR 11)) (R (AR 2)) (AR 2));
  (* 458 *) ARM (AADD true false (Imm 0) (Imm 0) (AR 29));
  (* 458 *) ARM (AADD false true (R (AR 27)) (R (AR 2)) (AR 2));
  (* 458 *) ARM (AADD true false (R (AR 12)) (R (AR 29)) (AR 29));
  (* 458 *) ARM (AMUL (R (AR 13)) (R (AR 5)) (AR 3));
  (* 458 *) ARM (AUMULH (R (AR 13)) (R (AR 5)) (AR 11));
  (* 458 *) ARM (ASUB false true (R (AR 21)) (R (AR 23)) (AR 23));
  (* 458 *) ARM (ASUB true true (R (AR 22)) (R (AR 24)) (AR 24));
  (* 458 *) ARM (ASUB true true (R (AR 2)) (R (AR 25)) (AR 25));
  (* 458 *) ARM (AMUL (R (AR 14)) (R (AR 5)) (AR 4));
  (* 458 *) ARM (AUMULH (R (AR 14)) (R (AR 5)) (AR 27));
  (* 458 *) ARM (ASUB true true (R (AR 29)) (R (AR 26)) (AR 26));
  (* 458 *) ARM (ASUB true true (Imm 0) (R (AR 1)) (AR 1));
  (* 458 *) ARM (AMUL (R (AR 6)) (R (AR 13)) (AR 5));
  (* 458 *) ARM (AUMULH (R (AR 6)) (R (AR 13)) (AR 13));
  (* 458 *) ARM (AADD false true (R (AR 11)) (R (AR 4)) (AR 4));
  (* 458 *) ARM (AADD true false (Imm 0) (R (AR 27)) (AR 27));
  (* 458 *) ARM (AMUL (R (AR 14)) (R (AR 6)) (AR 12));
  (* 458 *) ARM (AUMULH (R (AR 14)) (R (AR 6)) (AR 14));
  (* 458 *) ARM (AADD false true (R (AR 5)) (R (AR 4)) (AR 4));
  (* 458 *) ARM (AADD true true (R (AR 13)) (R (AR 27)) (AR 27));
  (* 458 *) ARM (AADD true false (Imm 0) (Imm 0) (AR 11));
  (* 458 *) ARM (AADD false true (R (AR 12)) (R (AR 27)) (AR 27));
  (* 458 *) ARM (AADD true false (R (AR 14)) (R (AR 11)) (AR 11));
  (* 458 *) ARM (ASUB false true (R (AR 3)) (R (AR 23)) (AR 23));
  (* 458 *) ARM (ASUB true true (R (AR 4)) (R (AR 24)) (AR 24));
  (* 458 *) ARM (ASUB true true (R (AR 27)) (R (AR 25)) (AR 25));
  (* 458 *) ARM (ASUB true true (R (AR 11)) (R (AR 26)) (AR 26));
  (* 458 *) ARM (ASUB true true (Imm 0) (R (AR 1)) (AR 1));
  (* 458 *) ARM (AADD false true (R (AR 2)) (R (AR 23)) (AR 23));
  (* 458 *) ARM (AADD true true (R (AR 29)) (R (AR 24)) (AR 24));
  (* 458 *) ARM (AADD true true (R (AR 3)) (R (AR 25)) (AR 25));
  (* 458 *) ARM (AADD true true (R (AR 4)) (R (AR 26)) (AR 26));
  (* 458 *) ARM (AADD true true (R (AR 1)) (R (AR 27)) (AR 27));
  (* 458 *) ARM (AADD true false (R (AR 11)) (Imm 0) (AR 29));
  (* 460 *) MOV (A 0) (R (AR 2));
  (* 461 *) MOV (A 16) (R (AR 1));
  (* 464 *) ARM (ASUB false true (R (AR 21)) (R (AR 8)) (AR 8));
  (* 465 *) ARM (ASUB true true (R (AR 22)) (R (AR 9)) (AR 9));
  (* 466 *) MOV (R (AR 21)) (M (AR 2) 0);
  (* 466 *) MOV (R (AR 22)) (M (AR 2) 8);
  (* 467 *) ARM (ASUB true true (R (AR 23)) (R (AR 10)) (AR 10));
  (* 468 *) ARM (ASUB true true (R (AR 24)) (R (AR 20)) (AR 20));
  (* 469 *) MOV (R (AR 23)) (M (AR 2) 16);
  (* 469 *) MOV (R (AR 24)) (M (AR 2) 24);
  (* 470 *) ARM (ASUB true true (R (AR 25)) (R (AR 15)) (AR 15));
  (* 471 *) ARM (ASUB true true (R (AR 26)) (R (AR 16)) (AR 16));
  (* 472 *) ARM (ASUB true true (R (AR 27)) (R (AR 17)) (AR 17));
  (* 473 *) ARM (ASUB true true (R (AR 29)) (R (AR 19)) (AR 19));
  (* 474 *) ARM (ASUB true false (Imm 0) (R (AR 7)) (AR 7));
  (* 477 *) MOV (M (AR 0) 32) (R (AR 3));
  (* 477 *) MOV (M (AR 0) 40) (R (AR 4));
  (* 478 *) MOV (M (AR 0) 48) (R (AR 5));
  (* 478 *) MOV (M (AR 0) 56) (R (AR 6));
  (* 479 *) MOV (M (AR 1) 32) (R (AR 11));
  (* 479 *) MOV (M (AR 1) 40) (R (AR 12));
  (* 480 *) MOV (M (AR 1) 48) (R (AR 13));
  (* 480 *) MOV (M (AR 1) 56) (R (AR 14));
  (* 482 *) ARM (AADD false true (R (AR 25)) (R (AR 8)) (AR 8));
  (* 483 *) ARM (AADD true true (R (AR 26)) (R (AR 9)) (AR 9));
  (* 484 *) ARM (AADD true true (R (AR 27)) (R (AR 10)) (AR 10));
  (* 485 *) ARM (AADD true true (R (AR 29)) (R (AR 20)) (AR 20));
  (* 486 *) ARM (AADD true false (Imm 0) (Imm 0) (AR 1));
  (* 488 *) MOV (R (AR 20)) (M (AR 2) 32);
  (* 491 *) ARM (AADD false true (R (AR 5)) (R (AR 3)) (AR 3));
  (* 491 *) ARM (AADD true true (R (AR 6)) (R (AR 4)) (AR 4));
  (* 491 *) ARM (AADD true true (Imm 0) (Imm 0) (AR 2));
  (* 491 *) ARM (AADD false true (R (AR 13)) (R (AR 11)) (AR 27));
  (* 491 *) ARM (AADD true true (R (AR 14)) (R (AR 12)) (AR 20));
  (* 491 *) ARM (AADD true false (Imm 0) (Imm 0) (AR 29));
  (* 491 *) ARM (ASUB false false (R (AR 2)) (Imm 0) (AR 23));
  (* 491 *) ARM (ASUB false false (R (AR 29)) (Imm 0) (AR 24));
  (* 491 *) ARM (AAND (R (AR 29)) (R (AR 2)) (AR 2));
  (* 491 *) ARM (AAND (R (AR 23)) (R (AR 27)) (AR 21));
  (* 491 *) ARM (AAND (R (AR 23)) (R (AR 20)) (AR 22));
  (* 491 *) ARM (AAND (R (AR 24)) (R (AR 3)) (AR 25));
  (* 491 *) ARM (AAND (R (AR 24)) (R (AR 4)) (AR 26));
  (* 491 *) ARM (AMUL (R (AR 27)) (R (AR 3)) (AR 23));
  (* 491 *) ARM (AMUL (R (AR 20)) (R (AR 3)) (AR 24));
  (* 491 *) ARM (AADD false true (R (AR 25)) (R (AR 21)) (AR 21));
  (* 491 *) ARM (AUMULH (R (AR 20)) (R (AR 3)) (AR 25));
  (* 491 *) ARM (AADD true true (R (AR 26)) (R (AR 22)) (AR 22));
  (* 491 *) ARM (AUMULH (R (AR 27)) (R (AR 3)) (AR 26));
  (* 491 *) ARM (AADD true false (Imm 0) (R (AR 2)) (AR 2));
  (* 491 *) ARM (AMUL (R (AR 4)) (R (AR 27)) (AR 3));
  (* 491 *) ARM (AUMULH (R (AR 4)) (R (AR 27)) (AR 27));
  (* 491 *) ARM (AADD false true (R (AR 26)) (R (AR 24)) (AR 24));
  (* 491 *) ARM (AADD true false (Imm 0) (R (AR 25)) (AR 25));
  (* 491 *) ARM (AMUL (R (AR 20)) (R (AR 4)) (AR 29));
  (* 491 *) ARM (AUMULH (R (AR 20)) (R (AR 4)) (AR 20));
  (* 491 *) ARM (AADD false true (R (AR 3)) (R (AR 24)) (AR 24));
  (* 491 *) ARM (AADD true true (R (AR 27)) (R (AR 25)) (AR 25));
  (* 491 *) ARM (AADD true false (Imm 0) (Imm 0) (AR 26));
  (* 491 *) ARM (AADD false true (R (AR 29)) (R (AR 25)) (AR 25));
  (* 491 *) ARM (AADD true false (R (AR 20)) (R (AR 26)) (AR 26));
  (* 491 *) MOV (M (AR 0) 32) (R (AR 3));
  (* 491 *) MOV (M (AR 0) 40) (R (AR 4));
  (* 491 *) ARM (AADD false true (R (AR 21)) (R (AR 25)) (AR 25));
  (* 491 *) ARM (AUMULH (R (AR 11)) (R (AR 3)) (AR 29));
  (* 491 *) ARM (AUMULH (R (AR 12)) (R (AR 3)) (AR 20));
  (* 491 *) ARM (AADD true true (R (AR 22)) (R (AR 26)) (AR 26));
  (* 491 *) ARM (AMUL (R (AR 11)) (R (AR 3)) (AR 21));
  (* 491 *) ARM (AMUL (R (AR 12)) (R (AR 3)) (AR 22));
  (* 491 *) ARM (AADD true false (Imm 0) (R (AR 2)) (AR 2));
  (* 491 *) ARM (AMUL (R (AR 4)) (R (AR 11)) (AR 3));
  (* 491 *) ARM (AUMULH (R (AR 4)) (R (AR 11)) (AR 11));
  (* 491 *) ARM (AADD false true (R (AR 29)) (R (AR 22)) (AR 22));
  (* 491 *) ARM (AADD true false (Imm 0) (R (AR 20)) (AR 20));
  (* 491 *) ARM (AMUL (R (AR 12)) (R (AR 4)) (AR 27));
  (* 491 *) ARM (AUMULH (R (AR 12)) (R (AR 4)) (AR 12));
  (* 491 *) ARM (AADD false true (R (AR 3)) (R (AR 22)) (AR 22));
  (* 491 *) ARM (AADD true true (R (AR 11)) (R (AR 20)) (AR 20));
  (* 491 *) ARM (AADD true false (Imm 0) (Imm 0) (AR 29));
  (* 491 *) ARM (AADD false true (R (AR 27)) (R (AR 20)) (AR 20));
  (* 491 *) ARM (AADD true false (R (AR 12)) (R (AR 29)) (AR 29));
  (* 491 *) ARM (AMUL (R (AR 13)) (R (AR 5)) (AR 3));
  (* 491 *) ARM (AUMULH (R (AR 13)) (R (AR 5)) (AR 11));
  (* 491 *) ARM (ASUB false true (R (AR 21)) (R (AR 23)) (AR 23));
  (* 491 *) ARM (ASUB true true (R (AR 22)) (R (AR 24)) (AR 24));
  (* 491 *) ARM (ASUB true true (R (AR 20)) (R (AR 25)) (AR 25));
  (* 491 *) ARM (AMUL (R (AR 14)) (R (AR 5)) (AR 4));
  (* 491 *) ARM (AUMULH (R (AR 14)) (R (AR 5)) (AR 27));
  (* 491 *) ARM (ASUB true true (R (AR 29)) (R (AR 26)) (AR 26));
  (* 491 *) ARM (ASUB true true (Imm 0) (R (AR 2)) (AR 2));
  (* 491 *) ARM (AMUL (R (AR 6)) (R (AR 13)) (AR 5));
  (* 491 *) ARM (AUMULH (R (AR 6)) (R (AR 13)) (AR 13));
  (* 491 *) ARM (AADD false true (R (AR 11)) (R (AR 4)) (AR 4));
  (* 491 *) ARM (AADD true false (Imm 0) (R (AR 27)) (AR 27));
  (* 491 *) ARM (AMUL (R (AR 14)) (R (AR 6)) (AR 12));
  (* 491 *) ARM (AUMULH (R (AR 14)) (R (AR 6)) (AR 14));
  (* 491 *) ARM (AADD false true (R (AR 5)) (R (AR 4)) (AR 4));
  (* 491 *) ARM (AADD true true (R (AR 13)) (R (AR 27)) (AR 27));
  (* 491 *) ARM (AADD true false (Imm 0) (Imm 0) (AR 11));
  (* 491 *) ARM (AADD false true (R (AR 12)) (R (AR 27)) (AR 27));
  (* 491 *) ARM (AADD true false (R (AR 14)) (R (AR 11)) (AR 11));
  (* 491 *) ARM (ASUB false true (R (AR 3)) (R (AR 23)) (AR 23));
  (* 491 *) ARM (ASUB true true (R (AR 4)) (R (AR 24)) (AR 24));
  (* 491 *) ARM (ASUB true true (R (AR 27)) (R (AR 25)) (AR 25));
  (* 491 *) ARM (ASUB true true (R (AR 11)) (R (AR 26)) (AR 26));
  (* 491 *) ARM (ASUB true true (Imm 0) (R (AR 2)) (AR 2));
  (* 491 *) ARM (AADD false true (R (AR 20)) (R (AR 23)) (AR 23));
  (* 491 *) ARM (AADD true true (R (AR 29)) (R (AR 24)) (AR 24));
  (* 491 *) ARM (AADD true true (R (AR 3)) (R (AR 25)) (AR 25));
  (* 491 *) ARM (AADD true true (R (AR 4)) (R (AR 26)) (AR 26));
  (* 491 *) ARM (AADD true true (R (AR 2)) (R (AR 27)) (AR 27));
  (* 491 *) ARM (AADD true false (R (AR 11)) (Imm 0) (AR 29));
  (* 492 *) ARM (ASUB false false (R (AR 1)) (Imm 0) (AR 1));
  (* 494 *) MOV (A 0) (R (AR 2));
  (* 495 *) MOV (M (AR 2) 32) (R (AR 20));
  (* 499 *) ARM (ASUB false true (R (AR 21)) (R (AR 8)) (AR 8));
  (* 500 *) ARM (ASUB true true (R (AR 22)) (R (AR 9)) (AR 9));
  (* 501 *) MOV (R (AR 8)) (M (AR 2) 32);
  (* 501 *) MOV (R (AR 9)) (M (AR 2) 40);
  (* 502 *) ARM (ASUB true true (R (AR 23)) (R (AR 10)) (AR 10));
  (* 503 *) ARM (ASUB true true (R (AR 24)) (R (AR 20)) (AR 20));
  (* 504 *) MOV (R (AR 10)) (M (AR 2) 48);
  (* 504 *) MOV (R (AR 20)) (M (AR 2) 56);
  (* 505 *) ARM (ASUB true true (R (AR 25)) (R (AR 15)) (AR 15));
  (* 506 *) ARM (ASUB true true (R (AR 26)) (R (AR 16)) (AR 16));
  (* 507 *) ARM (ASUB true true (R (AR 27)) (R (AR 17)) (AR 17));
  (* 508 *) ARM (ASUB true true (R (AR 29)) (R (AR 19)) (AR 19));
  (* 509 *) ARM (ASUB true false (Imm 0) (R (AR 7)) (AR 7));
  (* 513 *) ARM (AADD false true (Imm 1) (R (AR 1)) (AR 1));
  (* 514 *) ARM (AADD true true (R (AR 21)) (R (AR 15)) (AR 15));
  (* 515 *) ARM (AADD true true (R (AR 22)) (R (AR 16)) (AR 16));
  (* 516 *) MOV (R (AR 15)) (M (AR 2) 64);
  (* 516 *) MOV (R (AR 16)) (M (AR 2) 72);
  (* 517 *) ARM (AADD true true (R (AR 23)) (R (AR 17)) (AR 17));
  (* 518 *) ARM (AADD true true (R (AR 24)) (R (AR 19)) (AR 19));
  (* 519 *) MOV (R (AR 17)) (M (AR 2) 80);
  (* 519 *) MOV (R (AR 19)) (M (AR 2) 88);
  (* 520 *) ARM (AADD true true (R (AR 7)) (R (AR 25)) (AR 25));
  (* 521 *) ARM (AADD true true (Imm 0) (R (AR 26)) (AR 26));
  (* 522 *) MOV (R (AR 25)) (M (AR 2) 96);
  (* 522 *) MOV (R (AR 26)) (M (AR 2) 104);
  (* 523 *) ARM (AADD true true (Imm 0) (R (AR 27)) (AR 27));
  (* 524 *) ARM (AADD true false (Imm 0) (R (AR 29)) (AR 29));
  (* 525 *) MOV (R (AR 27)) (M (AR 2) 112);
  (* 525 *) MOV (R (AR 29)) (M (AR 2) 120)].
(* rdcP503, arith_arm64.s from line 573, frame of 0 bytes *)
Definition rdcP503Arm : list instr := [
  (* 574 *) MOV (A 8) (R (AR 0));
  (* 577 *) MOV (M (AR 0) 0) (R (AR 2));
  (* 577 *) MOV (M (AR 0) 8) (R (AR 3));
  (* 580 *) MOV (G 2 32) (R (AR 25));
  (* 580 *) MOV (G 2 40) (R (AR 26));
  (* 581 *) MOV (G 2 48) (R (AR 27));
  (* 581 *) MOV (G 2 56) (R (AR 29));
  (* 584 *) ARM (AMUL (R (AR 2)) (R (AR 25)) (AR 4));
  (* 585 *) ARM (AUMULH (R (AR 2)) (R (AR 25)) (AR 7));
  (* 586 *) ARM (AMUL (R (AR 2)) (R (AR 26)) (AR 5));
  (* 587 *) ARM (AUMULH (R (AR 2)) (R (AR 26)) (AR 6));
  (* 589 *) ARM (AMUL (R (AR 3)) (R (AR 25)) (AR 10));
  (* 589 *) ARM (AUMULH (R (AR 3)) (R (AR 25)) (AR 11));
  (* 589 *) ARM (AADD false true (R (AR 7)) (R (AR 5)) (AR 5));
  (* 589 *) ARM (AADD true false (Imm 0) (R (AR 6)) (AR 6));
  (* 589 *) ARM (AMUL (R (AR 2)) (R (AR 27)) (AR 12));
  (* 589 *) ARM (AUMULH (R (AR 2)) (R (AR 27)) (AR 13));
  (* 589 *) ARM (AADD false true (R (AR 10)) (R (AR 5)) (AR 5));
  (* 589 *) ARM (AADD true true (R (AR 11)) (R (AR 6)) (AR 6));
  (* 589 *) ARM (AADD true false (Imm 0) (Imm 0) (AR 7));
  (* 589 *) ARM (AMUL (R (AR 3)) (R (AR 26)) (AR 10));
  (* 589 *) ARM (AUMULH (R (AR 3)) (R (AR 26)) (AR 11));
  (* 589 *) ARM (AADD false true (R (AR 12)) (R (AR 6)) (AR 6));
  (* 589 *) ARM (AADD true true (R (AR 13)) (R (AR 7)) (AR 7));
  (* 589 *) ARM (AADD true false (Imm 0) (Imm 0) (AR 8));
  (* 589 *) ARM (AMUL (R (AR 2)) (R (AR 29)) (AR 12));
  (* 589 *) ARM (AUMULH (R (AR 2)) (R (AR 29)) (AR 13));
  (* 589 *) ARM (AADD false true (R (AR 10)) (R (AR 6)) (AR 6));
  (* 589 *) ARM (AADD true true (R (AR 11)) (R (AR 7)) (AR 7));
  (* 589 *) ARM (AADD true false (Imm 0) (R (AR 8)) (AR 8));
  (* 589 *) ARM (AMUL (R (AR 3)) (R (AR 27)) (AR 10));
  (* 589 *) ARM (AUMULH (R (AR 3)) (R (AR 27)) (AR 11));
  (* 589 *) ARM (AADD false true (R (AR 12)) (R (AR 7)) (AR 7));
  (* 589 *) ARM (AADD true true (R (AR 13)) (R (AR 8)) (AR 8));
  (* 589 *) ARM (AADD true false (Imm 0) (Imm 0) (AR 9));
  (* 589 *) ARM (AMUL (R (AR 3)) (R (AR 29)) (AR 12));
  (* 589 *) ARM (AUMULH (R (AR 3)) (R (AR 29)) (AR 13));
  (* 589 *) ARM (AADD false true (R (AR 10)) (R (AR 7)) (AR 7));
  (* 589 *) ARM (AADD true true (R (AR 11)) (R (AR 8)) (AR 8));
  (* 589 *) ARM (AADD true false (Imm 0) (R (AR 9)) (AR 9));
  (* 589 *) ARM (AADD false true (R (AR 12)) (R (AR 8)) (AR 8));
  (* 589 *) ARM (AADD true false (R (AR 13)) (R (AR 9)) (AR 9));
  (* 591 *) MOV (M (AR 0) 16) (R (AR 3));
  (* 591 *) MOV (M (AR 0) 24) (R (AR 11));
  (* 592 *) MOV (M (AR 0) 32) (R (AR 12));
  (* 592 *) MOV (M (AR 0) 40) (R (AR 13));
  (* 593 *) MOV (M (AR 0) 48) (R (AR 14));
  (* 593 *) MOV (M (AR 0) 56) (R (AR 15));
  (* 596 *) ARM (AORR (AR 9) 8 (Imm 0) (AR 10));
  (* 597 *) ARM (ALSL 56 (AR 9));
  (* 598 *) ARM (AORR (AR 8) 8 (R (AR 9)) (AR 9));
  (* 599 *) ARM (ALSL 56 (AR 8));
  (* 600 *) ARM (AORR (AR 7) 8 (R (AR 8)) (AR 8));
  (* 601 *) ARM (ALSL 56 (AR 7));
  (* 602 *) ARM (AORR (AR 6) 8 (R (AR 7)) (AR 7));
  (* 603 *) ARM (ALSL 56 (AR 6));
  (* 604 *) ARM (AORR (AR 5) 8 (R (AR 6)) (AR 6));
  (* 605 *) ARM (ALSL 56 (AR 5));
  (* 606 *) ARM (AORR (AR 4) 8 (R (AR 5)) (AR 5));
  (* 607 *) ARM (ALSL 56 (AR 4));
  (* 609 *) ARM (AADD false true (R (AR 4)) (R (AR 11)) (AR 11));
  (* 610 *) ARM (AADD true true (R (AR 5)) (R (AR 12)) (AR 12));
  (* 611 *) ARM (AADD true true (R (AR 6)) (R (AR 13)) (AR 13));
  (* 612 *) ARM (AADD true true (R (AR 7)) (R (AR 14)) (AR 14));
  (* 613 *) ARM (AADD true true (R (AR 8)) (R (AR 15)) (AR 15));
  (* 614 *) MOV (M (AR 0) 64) (R (AR 16));
  (* 614 *) MOV (M (AR 0) 72) (R (AR 17));
  (* 615 *) MOV (M (AR 0) 80) (R (AR 19));
  (* 615 *) MOV (M (AR 0) 88) (R (AR 20));
  (* 616 *) ARM (AMUL (R (AR 3)) (R (AR 25)) (AR 4));
  (* 617 *) ARM (AUMULH (R (AR 3)) (R (AR 25)) (AR 7));
  (* 618 *) ARM (AADD true true (R (AR 9)) (R (AR 16)) (AR 16));
  (* 619 *) ARM (AADD true true (R (AR 10)) (R (AR 17)) (AR 17));
  (* 620 *) ARM (AADD true true (Imm 0) (R (AR 19)) (AR 19));
  (* 621 *) ARM (AADD true true (Imm 0) (R (AR 20)) (AR 20));
  (* 622 *) MOV (M (AR 0) 96) (R (AR 21));
  (* 622 *) MOV (M (AR 0) 104) (R (AR 22));
  (* 623 *) MOV (M (AR 0) 112) (R (AR 23));
  (* 623 *) MOV (M (AR 0) 120) (R (AR 24));
  (* 624 *) ARM (AMUL (R (AR 3)) (R (AR 26)) (AR 5));
  (* 625 *) ARM (AUMULH (R (AR 3)) (R (AR 26)) (AR 6));
  (* 626 *) ARM (AADD true true (Imm 0) (R (AR 21)) (AR 21));
  (* 627 *) ARM (AADD true true (Imm 0) (R (AR 22)) (AR 22));
  (* 628 *) ARM (AADD true true (Imm 0) (R (AR 23)) (AR 23));
  (* 629 *) ARM (AADD true false (Imm 0) (R (AR 24)) (AR 24));
  (* 632 *) ARM (AMUL (R (AR 11)) (R (AR 25)) (AR 10));
  (* 632 *) ARM (AUMULH (R (AR 11)) (R (AR 25)) (AR 0));
  (* 632 *) ARM (AADD false true (R (AR 7)) (R (AR 5)) (AR 5));
  (* 632 *) ARM (AADD true false (Imm 0) (R (AR 6)) (AR 6));
  (* 632 *) ARM (AMUL (R (AR 3)) (R (AR 27)) (AR 1));
  (* 632 *) ARM (AUMULH (R (AR 3)) (R (AR 27)) (AR 2));
  (* 632 *) ARM (AADD false true (R (AR 10)) (R (AR 5)) (AR 5));
  (* 632 *) ARM (AADD true true (R (AR 0)) (R (AR 6)) (AR 6));
  (* 632 *) ARM (AADD true false (Imm 0) (Imm 0) (AR 7));
  (* 632 *) ARM (AMUL (R (AR 11)) (R (AR 26)) (AR 10));
  (* 632 *) ARM (AUMULH (R (AR 11)) (R (AR 26)) (AR 0));
  (* 632 *) ARM (AADD false true (R (AR 1)) (R (AR 6)) (AR 6));
  (* 632 *) ARM (AADD true true (R (AR 2)) (R (AR 7)) (AR 7));
  (* 632 *) ARM (AADD true false (Imm 0) (Imm 0) (AR 8));
  (* 632 *) ARM (AMUL (R (AR 3)) (R (AR 29)) (AR 1));
  (* 632 *) ARM (AUMULH (R (AR 3)) (R (AR 29)) (AR 2));
  (* 632 *) ARM (AADD false true (R (AR 10)) (R (AR 6)) (AR 6));
  (* 632 *) ARM (AADD true true (R (AR 0)) (R (AR 7)) (AR 7));
  (* 632 *) ARM (AADD true false (Imm 0) (R (AR 8)) (AR 8));
  (* 632 *) ARM (AMUL (R (AR 11)) (R (AR 27)) (AR 10));
  (* 632 *) ARM (AUMULH (R (AR 11)) (R (AR 27)) (AR 0));
  (* 632 *) ARM (AADD false true (R (AR 1)) (R (AR 7)) (AR 7));
  (* 632 *) ARM (AADD true true (R (AR 2)) (R (AR 8)) (AR 8));
  (* 632 *) ARM (AADD true false (Imm 0) (Imm 0) (AR 9));
  (* 632 *) ARM (AMUL (R (AR 11)) (R (AR 29)) (AR 1));
  (* 632 *) ARM (AUMULH (R (AR 11)) (R (AR 29)) (AR 2));
  (* 632 *) ARM (AADD false true (R (AR 10)) (R (AR 7)) (AR 7));
  (* 632 *) ARM (AADD true true (R (AR 0)) (R (AR 8)) (AR 8));
  (* 632 *) ARM (AADD true false (Imm 0) (R (AR 9)) (AR 9));
  (* 632 *) ARM (AADD false true (R (AR 1)) (R (AR 8)) (AR 8));
  (* 632 *) ARM (AADD true false (R (AR 2)) (R (AR 9)) (AR 9));
  (* 634 *) ARM (AORR (AR 9) 8 (Imm 0) (AR 10));
  (* 635 *) ARM (ALSL 56 (AR 9));
  (* 636 *) ARM (AORR (AR 8) 8 (R (AR 9)) (AR 9));
  (* 637 *) ARM (ALSL 56 (AR 8));
  (* 638 *) ARM (AORR (AR 7) 8 (R (AR 8)) (AR 8));
  (* 639 *) ARM (ALSL 56 (AR 7));
  (* 640 *) ARM (AORR (AR 6) 8 (R (AR 7)) (AR 7));
  (* 641 *) ARM (ALSL 56 (AR 6));
  (* 642 *) ARM (AORR (AR 5) 8 (R (AR 6)) (AR 6));
  (* 643 *) ARM (ALSL 56 (AR 5));
  (* 644 *) ARM (AORR (AR 4) 8 (R (AR 5)) (AR 5));
  (* 645 *) ARM (ALSL 56 (AR 4));
  (* 647 *) ARM (AADD false true (R (AR 4)) (R (AR 13)) (AR 13));
  (* 648 *) ARM (AADD true true (R (AR 5)) (R (AR 14)) (AR 14));
  (* 649 *) ARM (AADD true true (R (AR 6)) (R (AR 15)) (AR 15));
  (* 650 *) ARM (AADD true true (R (AR 7)) (R (AR 16)) (AR 16));
  (* 651 *) ARM (AMUL (R (AR 12)) (R (AR 25)) (AR 4));
  (* 652 *) ARM (AUMULH (R (AR 12)) (R (AR 25)) (AR 7));
  (* 653 *) ARM (AADD true true (R (AR 8)) (R (AR 17)) (AR 17));
  (* 654 *) ARM (AADD true true (R (AR 9)) (R (AR 19)) (AR 19));
  (* 655 *) ARM (AADD true true (R (AR 10)) (R (AR 20)) (AR 20));
  (* 656 *) ARM (AADD true true (Imm 0) (R (AR 21)) (AR 21));
  (* 657 *) ARM (AMUL (R (AR 12)) (R (AR 26)) (AR 5));
  (* 658 *) ARM (AUMULH (R (AR 12)) (R (AR 26)) (AR 6));
  (* 659 *) ARM (AADD true true (Imm 0) (R (AR 22)) (AR 22));
  (* 660 *) ARM (AADD true true (Imm 0) (R (AR 23)) (AR 23));
  (* 661 *) ARM (AADD true false (Imm 0) (R (AR 24)) (AR 24));
  (* 664 *) ARM (AMUL (R (AR 13)) (R (AR 25)) (AR 10));
  (* 664 *) ARM (AUMULH (R (AR 13)) (R (AR 25)) (AR 0));
  (* 664 *) ARM (AADD false true (R (AR 7)) (R (AR 5)) (AR 5));
  (* 664 *) ARM (AADD true false (Imm 0) (R (AR 6)) (AR 6));
  (* 664 *) ARM (AMUL (R (AR 12)) (R (AR 27)) (AR 1));
  (* 664 *) ARM (AUMULH (R (AR 12)) (R (AR 27)) (AR 2));
  (* 664 *) ARM (AADD false true (R (AR 10)) (R (AR 5)) (AR 5));
  (* 664 *) ARM (AADD true true (R (AR 0)) (R (AR 6)) (AR 6));
  (* 664 *) ARM (AADD true false (Imm 0) (Imm 0) (AR 7));
  (* 664 *) ARM (AMUL (R (AR 13)) (R (AR 26)) (AR 10));
  (* 664 *) ARM (AUMULH (R (AR 13)) (R (AR 26)) (AR 0));
  (* 664 *) ARM (AADD false true (R (AR 1)) (R (AR 6)) (AR 6));
  (* 664 *) ARM (AADD true true (R (AR 2)) (R (AR 7)) (AR 7));
  (* 664 *) ARM (AADD true false (Imm 0) (Imm 0) (AR 8));
  (* 664 *) ARM (AMUL (R (AR 12)) (R (AR 29)) (AR 1));
  (* 664 *) ARM (AUMULH (R (AR 12)) (R (AR 29)) (AR 2));
  (* 664 *) ARM (AADD false true (R (AR 10)) (R (AR 6)) (AR 6));
  (* 664 *) ARM (AADD true true (R (AR 0)) (R (AR 7)) (AR 7));
  (* 664 *) ARM (AADD true false (Imm 0) (R (AR 8)) (AR 8));
  (* 664 *) ARM (AMUL (R (AR 13)) (R (AR 27)) (AR 10));
  (* 664 *) ARM (AUMULH (R (AR 13)) (R (AR 27)) (AR 0));
  (* 664 *) ARM (AADD false true (R (AR 1)) (R (AR 7)) (AR 7));
  (* 664 *) ARM (AADD true true (R (AR 2)) (R (AR 8)) (AR 8));
  (* 664 *) ARM (AADD true false (Imm 0) (Imm 0) (AR 9));
  (* 664 *) ARM (AMUL (R (AR 13)) (R (AR 29)) (AR 1));
  (* 664 *) ARM (AUMULH (R (AR 13)) (R (AR 29)) (AR 2));
  (* 664 *) ARM (AADD false true (R (AR 10)) (R (AR 7)) (AR 7));
  (* 664 *) ARM (AADD true true (R (AR 0)) (R (AR 8)) (AR 8));
  (* 664 *) ARM (AADD true false (Imm 0) (R (AR 9)) (AR 9));
  (* 664 *) ARM (AADD false true (R (AR 1)) (R (AR 8)) (AR 8));
  (* 664 *) ARM (AADD true false (R (AR 2)) (R (AR 9)) (AR 9));
  (* 666 *) ARM (AORR (AR 9) 8 (Imm 0) (AR 10));
  (* 667 *) ARM (ALSL 56 (AR 9));
  (* 668 *) ARM (AORR (AR 8) 8 (R (AR 9)) (AR 9));
  (* 669 *) ARM (ALSL 56 (AR 8));
  (* 670 *) ARM (AORR (AR 7) 8 (R (AR 8)) (AR 8));
  (* 671 *) ARM (ALSL 56 (AR 7));
  (* 672 *) ARM (AORR (AR 6) 8 (R (AR 7)) (AR 7));
  (* 673 *) ARM (ALSL 56 (AR 6));
  (* 674 *) ARM (AORR (AR 5) 8 (R (AR 6)) (AR 6));
  (* 675 *) ARM (ALSL 56 (AR 5));
  (* 676 *) ARM (AORR (AR 4) 8 (R (AR 5)) (AR 5));
  (* 677 *) ARM (ALSL 56 (AR 4));
  (* 679 *) ARM (AADD false true (R (AR 4)) (R (AR 15)) (AR 15));
  (* 680 *) ARM (AADD true true (R (AR 5)) (R (AR 16)) (AR 16));
  (* 681 *) ARM (AADD true true (R (AR 6)) (R (AR 17)) (AR 17));
  (* 682 *) ARM (AADD true true (R (AR 7)) (R (AR 19)) (AR 19));
  (* 683 *) ARM (AMUL (R (AR 14)) (R (AR 25)) (AR 4));
  (* 684 *) ARM (AUMULH (R (AR 14)) (R (AR 25)) (AR 7));
  (* 685 *) ARM (AADD true true (R (AR 8)) (R (AR 20)) (AR 20));
  (* 686 *) ARM (AADD true true (R (AR 9)) (R (AR 21)) (AR 21));
  (* 687 *) ARM (AADD true true (R (AR 10)) (R (AR 22)) (AR 22));
  (* 688 *) ARM (AMUL (R (AR 14)) (R (AR 26)) (AR 5));
  (* 689 *) ARM (AUMULH (R (AR 14)) (R (AR 26)) (AR 6));
  (* 690 *) ARM (AADD true true (Imm 0) (R (AR 23)) (AR 23));
  (* 691 *) ARM (AADD true false (Imm 0) (R (AR 24)) (AR 24));
  (* 694 *) ARM (AMUL (R (AR 15)) (R (AR 25)) (AR 10));
  (* 694 *) ARM (AUMULH (R (AR 15)) (R (AR 25)) (AR 0));
  (* 694 *) ARM (AADD false true (R (AR 7)) (R (AR 5)) (AR 5));
  (* 694 *) ARM (AADD true false (Imm 0) (R (AR 6)) (AR 6));
  (* 694 *) ARM (AMUL (R (AR 14)) (R (AR 27)) (AR 1));
  (* 694 *) ARM (AUMULH (R (AR 14)) (R (AR 27)) (AR 2));
  (* 694 *) ARM (AADD false true (R (AR 10)) (R (AR 5)) (AR 5));
  (* 694 *) ARM (AADD true true (R (AR 0)) (R (AR 6)) (AR 6));
  (* 694 *) ARM (AADD true false (Imm 0) (Imm 0) (AR 7));
  (* 694 *) ARM (AMUL (R (AR 15)) (R (AR 26)) (AR 10));
  (* 694 *) ARM (AUMULH (R (AR 15)) (R (AR 26)) (AR 0));
  (* 694 *) ARM (AADD false true (R (AR 1)) (R (AR 6)) (AR 6));
  (* 694 *) ARM (AADD true true (R (AR 2)) (R (AR 7)) (AR 7));
  (* 694 *) ARM (AADD true false (Imm 0) (Imm 0) (AR 8));
  (* 694 *) ARM (AMUL (R (AR 14)) (R (AR 29)) (AR 1));
  (* 694 *) ARM (AUMULH (R (AR 14)) (R (AR 29)) (AR 2));
  (* 694 *) ARM (AADD false true (R (AR 10)) (R (AR 6)) (AR 6));
  (* 694 *) ARM (AADD true true (R (AR 0)) (R (AR 7)) (AR 7));
  (* 694 *) ARM (AADD true false (Imm 0) (R (AR 8)) (AR 8));
  (* 694 *) ARM (AMUL (R (AR 15)) (R (AR 27)) (AR 10));
  (* 694 *) ARM (AUMULH (R (AR 15)) (R (AR 27)) (AR 0));
  (* 694 *) ARM (AADD false true (R (AR 1)) (R (AR 7)) (AR 7));
  (* 694 *) ARM (AADD true true (R (AR 2)) (R (AR 8)) (AR 8));
  (* 694 *) ARM (AADD true false (Imm 0) (Imm 0) (AR 9));
  (* 694 *) ARM (AMUL (R (AR 15)) (R (AR 29)) (AR 1));
  (* 694 *) ARM (AUMULH (R (AR 15)) (R (AR 29)) (AR 2));
  (* 694 *) ARM (AADD false true (R (AR 10)) (R (AR 7)) (AR 7));
  (* 694 *) ARM (AADD true true (R (AR 0)) (R (AR 8)) (AR 8));
  (* 694 *) ARM (AADD true false (Imm 0) (R (AR 9)) (AR 9));
  (* 694 *) ARM (AADD false true (R (AR 1)) (R (AR 8)) (AR 8));
  (* 694 *) ARM (AADD true false (R (AR 2)) (R (AR 9)) (AR 9));
  (* 696 *) ARM (AORR (AR 9) 8 (Imm 0) (AR 10));
  (* 697 *) ARM (ALSL 56 (AR 9));
  (* 698 *) ARM (AORR (AR 8) 8 (R (AR 9)) (AR 9));
  (* 699 *) ARM (ALSL 56 (AR 8));
  (* 700 *) ARM (AORR (AR 7) 8 (R (AR 8)) (AR 8));
  (* 701 *) ARM (ALSL 56 (AR 7));
  (* 702 *) ARM (AORR (AR 6) 8 (R (AR 7)) (AR 7));
  (* 703 *) ARM (ALSL 56 (AR 6));
  (* 704 *) ARM (AORR (AR 5) 8 (R (AR 6)) (AR 6));
  (* 705 *) ARM (ALSL 56 (AR 5));
  (* 706 *) ARM (AORR (AR 4) 8 (R (AR 5)) (AR 5));
  (* 707 *) ARM (ALSL 56 (AR 4));
  (* 709 *) MOV (A 0) (R (AR 0));
  (* 710 *) ARM (AADD false true (R (AR 4)) (R (AR 17)) (AR 17));
  (* 711 *) ARM (AADD true true (R (AR 5)) (R (AR 19)) (AR 19));
  (* 712 *) MOV (R (AR 16)) (M (AR 0) 0);
  (* 712 *) MOV (R (AR 17)) (M (AR 0) 8);
  (* 713 *) ARM (AADD true true (R (AR 6)) (R (AR 20)) (AR 20));
  (* 714 *) ARM (AADD true true (R (AR 7)) (R (AR 21)) (AR 21));
  (* 715 *) MOV (R (AR 19)) (M (AR 0) 16);
  (* 715 *) MOV (R (AR 20)) (M (AR 0) 24);
  (* 716 *) ARM (AADD true true (R (AR 8)) (R (AR 22)) (AR 22));
  (* 717 *) ARM (AADD true true (R (AR 9)) (R (AR 23)) (AR 23));
  (* 718 *) MOV (R (AR 21)) (M (AR 0) 32);
  (* 718 *) MOV (R (AR 22)) (M (AR 0) 40);
  (* 719 *) ARM (AADD true false (R (AR 10)) (R (AR 24)) (AR 24));
  (* 720 *) MOV (R (AR 23)) (M (AR 0) 48);
  (* 720 *) MOV (R (AR 24)) (M (AR 0) 56)].
(* modP503, arith_arm64.s from line 724, frame of 0 bytes *)
Definition modP503Arm : list instr := [
  (* 725 *) MOV (A 0) (R (AR 0));
  (* 728 *) MOV (G 0 16) (R (AR 9));
  (* 728 *) MOV (G 0 24) (R (AR 10));
  (* 729 *) MOV (M (AR 0) 0) (R (AR 1));
  (* 729 *) MOV (M (AR 0) 8) (R (AR 2));
  (* 730 *) MOV (M (AR 0) 16) (R (AR 3));
  (* 730 *) MOV (M (AR 0) 24) (R (AR 4));
  (* 731 *) ARM (ASUB false true (R (AR 9)) (R (AR 1)) (AR 1));
  (* 732 *) ARM (ASUB true true (R (AR 9)) (R (AR 2)) (AR 2));
  (* 734 *) MOV (M (AR 0) 32) (R (AR 5));
  (* 734 *) MOV (M (AR 0) 40) (R (AR 6));
  (* 735 *) MOV (G 0 32) (R (AR 11));
  (* 735 *) MOV (G 0 40) (R (AR 12));
  (* 736 *) ARM (ASUB true true (R (AR 9)) (R (AR 3)) (AR 3));
  (* 737 *) ARM (ASUB true true (R (AR 10)) (R (AR 4)) (AR 4));
  (* 739 *) MOV (M (AR 0) 48) (R (AR 7));
  (* 739 *) MOV (M (AR 0) 56) (R (AR 8));
  (* 740 *) MOV (G 0 48) (R (AR 13));
  (* 740 *) MOV (G 0 56) (R (AR 14));
  (* 741 *) ARM (ASUB true true (R (AR 11)) (R (AR 5)) (AR 5));
  (* 742 *) ARM (ASUB true true (R (AR 12)) (R (AR 6)) (AR 6));
  (* 744 *) ARM (ASUB true true (R (AR 13)) (R (AR 7)) (AR 7));
  (* 745 *) ARM (ASUB true true (R (AR 14)) (R (AR 8)) (AR 8));
  (* 746 *) ARM (ASUB true false (Imm 0) (Imm 0) (AR 15));
  (* 749 *) ARM (AAND (R (AR 15)) (R (AR 9)) (AR 9));
  (* 750 *) ARM (AAND (R (AR 15)) (R (AR 10)) (AR 10));
  (* 751 *) ARM (AAND (R (AR 15)) (R (AR 11)) (AR 11));
  (* 752 *) ARM (AAND (R (AR 15)) (R (AR 12)) (AR 12));
  (* 753 *) ARM (AAND (R (AR 15)) (R (AR 13)) (AR 13));
  (* 754 *) ARM (AAND (R (AR 15)) (R (AR 14)) (AR 14));
  (* 756 *) ARM (AADD false true (R (AR 9)) (R (AR 1)) (AR 1));
  (* 757 *) ARM (AADD true true (R (AR 9)) (R (AR 2)) (AR 2));
  (* 758 *) MOV (R (AR 1)) (M (AR 0) 0);
  (* 758 *) MOV (R (AR 2)) (M (AR 0) 8);
  (* 759 *) ARM (AADD true true (R (AR 9)) (R (AR 3)) (AR 3));
  (* 760 *) ARM (AADD true true (R (AR 10)) (R (AR 4)) (AR 4));
  (* 761 *) MOV (R (AR 3)) (M (AR 0) 16);
  (* 761 *) MOV (R (AR 4)) (M (AR 0) 24);
  (* 762 *) ARM (AADD true true (R (AR 11)) (R (AR 5)) (AR 5));
  (* 763 *) ARM (AADD true true (R (AR 12)) (R (AR 6)) (AR 6));
  (* 764 *) MOV (R (AR 5)) (M (AR 0) 32);
  (* 764 *) MOV (R (AR 6)) (M (AR 0) 40);
  (* 765 *) ARM (AADD true true (R (AR 13)) (R (AR 7)) (AR 7));
  (* 766 *) ARM (AADD true true (R (AR 14)) (R (AR 8)) (AR 8));
  (* 767 *) MOV (R (AR 7)) (M (AR 0) 48);
  (* 767 *) MOV (R (AR 8)) (M (AR 0) 56)].
