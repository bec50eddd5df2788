(* The arm64 routines of dh/sidh/internal/p751/arith_arm64.s, with its macros expanded; the number before an instruction is its
   line (that of the macro call for a macro).  RET is the end of a list; CMP $0, r followed by CSELs that use its flags are
   ACSELs on r (r is not changed in between); package variables are numbered P751, P751x2, P751p1. *)
From Coq Require Import ZArith List.
From Verif Require Import X86.
Import ListNotations.
Open Scope Z_scope.

(* cswapP751, arith_arm64.s from line 5, frame of 0 bytes *)
Definition cswapP751Arm : list instr := [
  (* 6 *) MOV (A 0) (R (AR 0));
  (* 7 *) MOV (A 8) (R (AR 1));
  (* 8 *) ARM (AMOVB (A 16) (AR 2));
  (* 14 *) MOV (M (AR 0) 0) (R (AR 3));
  (* 14 *) MOV (M (AR 0) 8) (R (AR 4));
  (* 15 *) MOV (M (AR 1) 0) (R (AR 5));
  (* 15 *) MOV (M (AR 1) 8) (R (AR 6));
  (* 16 *) ARM (ACSEL true (AR 2) (R (AR 3)) (R (AR 5)) (AR 7));
  (* 17 *) ARM (ACSEL true (AR 2) (R (AR 4)) (R (AR 6)) (AR 8));
  (* 18 *) MOV (R (AR 7)) (M (AR 0) 0);
  (* 18 *) MOV (R (AR 8)) (M (AR 0) 8);
  (* 19 *) ARM (ACSEL false (AR 2) (R (AR 3)) (R (AR 5)) (AR 9));
  (* 20 *) ARM (ACSEL false (AR 2) (R (AR 4)) (R (AR 6)) (AR 10));
  (* 21 *) MOV (R (AR 9)) (M (AR 1) 0);
  (* 21 *) MOV (R (AR 10)) (M (AR 1) 8);
  (* 23 *) MOV (M (AR 0) 16) (R (AR 3));
  (* 23 *) MOV (M (AR 0) 24) (R (AR 4));
  (* 24 *) MOV (M (AR 1) 16) (R (AR 5));
  (* 24 *) MOV (M (AR 1) 24) (R (AR 6));
  (* 25 *) ARM (ACSEL true (AR 2) (R (AR 3)) (R (AR 5)) (AR 7));
  (* 26 *) ARM (ACSEL true (AR 2) (R (AR 4)) (R (AR 6)) (AR 8));
  (* 27 *) MOV (R (AR 7)) (M (AR 0) 16);
  (* 27 *) MOV (R (AR 8)) (M (AR 0) 24);
  (* 28 *) ARM (ACSEL false (AR 2) (R (AR 3)) (R (AR 5)) (AR 9));
  (* 29 *) ARM (ACSEL false (AR 2) (R (AR 4)) (R (AR 6)) (AR 10));
  (* 30 *) MOV (R (AR 9)) (M (AR 1) 16);
  (* 30 *) MOV (R (AR 10)) (M (AR 1) 24);
  (* 32 *) MOV (M (AR 0) 32) (R (AR 3));
  (* 32 *) MOV (M (AR 0) 40) (R (AR 4));
  (* 33 *) MOV (M (AR 1) 32) (R (AR 5));
  (* 33 *) MOV (M (AR 1) 40) (R (AR 6));
  (* 34 *) ARM (ACSEL true (AR 2) (R (AR 3)) (R (AR 5)) (AR 7));
  (* 35 *) ARM (ACSEL true (AR 2) (R (AR 4)) (R (AR 6)) (AR 8));
  (* 36 *) MOV (R (AR 7)) (M (AR 0) 32);
  (* 36 *) MOV (R (AR 8)) (M (AR 0) 40);
  (* 37 *) ARM (ACSEL false (AR 2) (R (AR 3)) (R (AR 5)) (AR 9));
  (* 38 *) ARM (ACSEL false (AR 2) (R (AR 4)) (R (AR 6)) (AR 10));
  (* 39 *) MOV (R (AR 9)) (M (AR 1) 32);
  (* 39 *) MOV (R (AR 10)) (M (AR 1) 40);
  (* 41 *) MOV (M (AR 0) 48) (R (AR 3));
  (* 41 *) MOV (M (AR 0) 56) (R (AR 4));
  (* 42 *) MOV (M (AR 1) 48) (R (AR 5));
  (* 42 *) MOV (M (AR 1) 56) (R (AR 6));
  (* 43 *) ARM (ACSEL true (AR 2) (R (AR 3)) (R (AR 5)) (AR 7));
  (* 44 *) ARM (ACSEL true (AR 2) (R (AR 4)) (R (AR 6)) (AR 8));
  (* 45 *) MOV (R (AR 7)) (M (AR 0) 48);
  (* 45 *) MOV (R (AR 8)) (M (AR 0) 56);
  (* 46 *) ARM (ACSEL false (AR 2) (R (AR 3)) (R (AR 5)) (AR 9));
  (* 47 *) ARM (ACSEL false (AR 2) (R (AR 4)) (R (AR 6)) (AR 10));
  (* 48 *) MOV (R (AR 9)) (M (AR 1) 48);
  (* 48 *) MOV (R (AR 10)) (M (AR 1) 56);
  (* 50 *) MOV (M (AR 0) 64) (R (AR 3));
  (* 50 *) MOV (M (AR 0) 72) (R (AR 4));
  (* 51 *) MOV (M (AR 1) 64) (R (AR 5));
  (* 51 *) MOV (M (AR 1) 72) (R (AR 6));
  (* 52 *) ARM (ACSEL true (AR 2) (R (AR 3)) (R (AR 5)) (AR 7));
  (* 53 *) ARM (ACSEL true (AR 2) (R (AR 4)) (R (AR 6)) (AR 8));
  (* 54 *) MOV (R (AR 7)) (M (AR 0) 64);
  (* 54 *) MOV (R (AR 8)) (M (AR 0) 72);
  (* 55 *) ARM (ACSEL false (AR 2) (R (AR 3)) (R (AR 5)) (AR 9));
  (* 56 *) ARM (ACSEL false (AR 2) (R (AR 4)) (R (AR 6)) (AR 10));
  (* 57 *) MOV (R (AR 9)) (M (AR 1) 64);
  (* 57 *) MOV (R (AR 10)) (M (AR 1) 72);
  (* 59 *) MOV (M (AR 0) 80) (R (AR 3));
  (* 59 *) MOV (M (AR 0) 88) (R (AR 4));
  (* 60 *) MOV (M (AR 1) 80) (R (AR 5));
  (* 60 *) MOV (M (AR 1) 88) (R (AR 6));
  (* 61 *) ARM (ACSEL true (AR 2) (R (AR 3)) (R (AR 5)) (AR 7));
  (* 62 *) ARM (ACSEL true (AR 2) (R (AR 4)) (R (AR 6)) (AR 8));
  (* 63 *) MOV (R (AR 7)) (M (AR 0) 80);
  (* 63 *) MOV (R (AR 8)) (M (AR 0) 88);
  (* 64 *) ARM (ACSEL false (AR 2) (R (AR 3)) (R (AR 5)) (AR 9));
  (* 65 *) ARM (ACSEL false (AR 2) (R (AR 4)) (R (AR 6)) (AR 10));
  (* 66 *) MOV (R (AR 9)) (M (AR 1) 80);
  (* 66 *) MOV (R (AR 10)) (M (AR 1) 88)].
(* addP751, arith_arm64.s from line 70, frame of 0 bytes *)
Definition addP751Arm : list instr := [
  (* 71 *) MOV (A 0) (R (AR 2));
  (* 72 *) MOV (A 8) (R (AR 0));
  (* 73 *) MOV (A 16) (R (AR 1));
  (* 77 *) MOV (M (AR 0) 0) (R (AR 3));
  (* 77 *) MOV (M (AR 0) 8) (R (AR 4));
  (* 78 *) MOV (M (AR 1) 0) (R (AR 15));
  (* 78 *) MOV (M (AR 1) 8) (R (AR 16));
  (* 79 *) MOV (M (AR 0) 16) (R (AR 5));
  (* 79 *) MOV (M (AR 0) 24) (R (AR 6));
  (* 80 *) MOV (M (AR 1) 16) (R (AR 17));
  (* 80 *) MOV (M (AR 1) 24) (R (AR 19));
  (* 81 *) ARM (AADD false true (R (AR 15)) (R (AR 3)) (AR 3));
  (* 82 *) ARM (AADD true true (R (AR 16)) (R (AR 4)) (AR 4));
  (* 83 *) ARM (AADD true true (R (AR 17)) (R (AR 5)) (AR 5));
  (* 84 *) ARM (AADD true true (R (AR 19)) (R (AR 6)) (AR 6));
  (* 86 *) MOV (M (AR 0) 32) (R (AR 7));
  (* 86 *) MOV (M (AR 0) 40) (R (AR 8));
  (* 87 *) MOV (M (AR 1) 32) (R (AR 15));
  (* 87 *) MOV (M (AR 1) 40) (R (AR 16));
  (* 88 *) MOV (M (AR 0) 48) (R (AR 9));
  (* 88 *) MOV (M (AR 0) 56) (R (AR 10));
  (* 89 *) MOV (M (AR 1) 48) (R (AR 17));
  (* 89 *) MOV (M (AR 1) 56) (R (AR 19));
  (* 90 *) ARM (AADD true true (R (AR 15)) (R (AR 7)) (AR 7));
  (* 91 *) ARM (AADD true true (R (AR 16)) (R (AR 8)) (AR 8));
  (* 92 *) ARM (AADD true true (R (AR 17)) (R (AR 9)) (AR 9));
  (* 93 *) ARM (AADD true true (R (AR 19)) (R (AR 10)) (AR 10));
  (* 95 *) MOV (M (AR 0) 64) (R (AR 11));
  (* 95 *) MOV (M (AR 0) 72) (R (AR 12));
  (* 96 *) MOV (M (AR 1) 64) (R (AR 15));
  (* 96 *) MOV (M (AR 1) 72) (R (AR 16));
  (* 97 *) MOV (M (AR 0) 80) (R (AR 13));
  (* 97 *) MOV (M (AR 0) 88) (R (AR 14));
  (* 98 *) MOV (M (AR 1) 80) (R (AR 17));
  (* 98 *) MOV (M (AR 1) 88) (R (AR 19));
  (* 99 *) ARM (AADD true true (R (AR 15)) (R (AR 11)) (AR 11));
  (* 100 *) ARM (AADD true true (R (AR 16)) (R (AR 12)) (AR 12));
  (* 101 *) ARM (AADD true true (R (AR 17)) (R (AR 13)) (AR 13));
  (* 102 *) ARM (AADD true false (R (AR 19)) (R (AR 14)) (AR 14));
  (* 105 *) MOV (G 1 0) (R (AR 15));
  (* 105 *) MOV (G 1 8) (R (AR 16));
  (* 106 *) ARM (ASUB false true (R (AR 15)) (R (AR 3)) (AR 3));
  (* 107 *) ARM (ASUB true true (R (AR 16)) (R (AR 4)) (AR 4));
  (* 108 *) MOV (G 1 40) (R (AR 17));
  (* 108 *) MOV (G 1 48) (R (AR 19));
  (* 109 *) ARM (ASUB true true (R (AR 16)) (R (AR 5)) (AR 5));
  (* 110 *) ARM (ASUB true true (R (AR 16)) (R (AR 6)) (AR 6));
  (* 111 *) ARM (ASUB true true (R (AR 16)) (R (AR 7)) (AR 7));
  (* 112 *) MOV (G 1 56) (R (AR 20));
  (* 112 *) MOV (G 1 64) (R (AR 21));
  (* 113 *) ARM (ASUB true true (R (AR 17)) (R (AR 8)) (AR 8));
  (* 114 *) ARM (ASUB true true (R (AR 19)) (R (AR 9)) (AR 9));
  (* 115 *) MOV (G 1 72) (R (AR 22));
  (* 115 *) MOV (G 1 80) (R (AR 23));
  (* 116 *) ARM (ASUB true true (R (AR 20)) (R (AR 10)) (AR 10));
  (* 117 *) ARM (ASUB true true (R (AR 21)) (R (AR 11)) (AR 11));
  (* 118 *) MOV (G 1 88) (R (AR 24));
  (* 119 *) ARM (ASUB true true (R (AR 22)) (R (AR 12)) (AR 12));
  (* 120 *) ARM (ASUB true true (R (AR 23)) (R (AR 13)) (AR 13));
  (* 121 *) ARM (ASUB true true (R (AR 24)) (R (AR 14)) (AR 14));
  (* 122 *) ARM (ASUB true false (Imm 0) (Imm 0) (AR 25));
  (* 125 *) ARM (AAND (R (AR 25)) (R (AR 15)) (AR 15));
  (* 126 *) ARM (AAND (R (AR 25)) (R (AR 16)) (AR 16));
  (* 127 *) ARM (AAND (R (AR 25)) (R (AR 17)) (AR 17));
  (* 128 *) ARM (AAND (R (AR 25)) (R (AR 19)) (AR 19));
  (* 129 *) ARM (AAND (R (AR 25)) (R (AR 20)) (AR 20));
  (* 130 *) ARM (AAND (R (AR 25)) (R (AR 21)) (AR 21));
  (* 131 *) ARM (AAND (R (AR 25)) (R (AR 22)) (AR 22));
  (* 132 *) ARM (AAND (R (AR 25)) (R (AR 23)) (AR 23));
  (* 133 *) ARM (AAND (R (AR 25)) (R (AR 24)) (AR 24));
  (* 135 *) ARM (AADD false true (R (AR 15)) (R (AR 3)) (AR 3));
  (* 136 *) ARM (AADD true true (R (AR 16)) (R (AR 4)) (AR 4));
  (* 137 *) MOV (R (AR 3)) (M (AR 2) 0);
  (* 137 *) MOV (R (AR 4)) (M (AR 2) 8);
  (* 138 *) ARM (AADD true true (R (AR 16)) (R (AR 5)) (AR 5));
  (* 139 *) ARM (AADD true true (R (AR 16)) (R (AR 6)) (AR 6));
  (* 140 *) MOV (R (AR 5)) (M (AR 2) 16);
  (* 140 *) MOV (R (AR 6)) (M (AR 2) 24);
  (* 141 *) ARM (AADD true true (R (AR 16)) (R (AR 7)) (AR 7));
  (* 142 *) ARM (AADD true true (R (AR 17)) (R (AR 8)) (AR 8));
  (* 143 *) MOV (R (AR 7)) (M (AR 2) 32);
  (* 143 *) MOV (R (AR 8)) (M (AR 2) 40);
  (* 144 *) ARM (AADD true true (R (AR 19)) (R (AR 9)) (AR 9));
  (* 145 *) ARM (AADD true true (R (AR 20)) (R (AR 10)) (AR 10));
  (* 146 *) MOV (R (AR 9)) (M (AR 2) 48);
  (* 146 *) MOV (R (AR 10)) (M (AR 2) 56);
  (* 147 *) ARM (AADD true true (R (AR 21)) (R (AR 11)) (AR 11));
  (* 148 *) ARM (AADD true true (R (AR 22)) (R (AR 12)) (AR 12));
  (* 149 *) MOV (R (AR 11)) (M (AR 2) 64);
  (* 149 *) MOV (R (AR 12)) (M (AR 2) 72);
  (* 150 *) ARM (AADD true true (R (AR 23)) (R (AR 13)) (AR 13));
  (* 151 *) ARM (AADD true false (R (AR 24)) (R (AR 14)) (AR 14));
  (* 152 *) MOV (R (AR 13)) (M (AR 2) 80);
  (* 152 *) MOV (R (AR 14)) (M (AR 2) 88)].
(* subP751, arith_arm64.s from line 156, frame of 0 bytes *)
Definition subP751Arm : list instr := [
  (* 157 *) MOV (A 0) (R (AR 2));
  (* 158 *) MOV (A 8) (R (AR 0));
  (* 159 *) MOV (A 16) (R (AR 1));
  (* 163 *) MOV (M (AR 0) 0) (R (AR 3));
  (* 163 *) MOV (M (AR 0) 8) (R (AR 4));
  (* 164 *) MOV (M (AR 1) 0) (R (AR 15));
  (* 164 *) MOV (M (AR 1) 8) (R (AR 16));
  (* 165 *) MOV (M (AR 0) 16) (R (AR 5));
  (* 165 *) MOV (M (AR 0) 24) (R (AR 6));
  (* 166 *) MOV (M (AR 1) 16) (R (AR 17));
  (* 166 *) MOV (M (AR 1) 24) (R (AR 19));
  (* 167 *) ARM (ASUB false true (R (AR 15)) (R (AR 3)) (AR 3));
  (* 168 *) ARM (ASUB true true (R (AR 16)) (R (AR 4)) (AR 4));
  (* 169 *) ARM (ASUB true true (R (AR 17)) (R (AR 5)) (AR 5));
  (* 170 *) ARM (ASUB true true (R (AR 19)) (R (AR 6)) (AR 6));
  (* 172 *) MOV (M (AR 0) 32) (R (AR 7));
  (* 172 *) MOV (M (AR 0) 40) (R (AR 8));
  (* 173 *) MOV (M (AR 1) 32) (R (AR 15));
  (* 173 *) MOV (M (AR 1) 40) (R (AR 16));
  (* 174 *) MOV (M (AR 0) 48) (R (AR 9));
  (* 174 *) MOV (M (AR 0) 56) (R (AR 10));
  (* 175 *) MOV (M (AR 1) 48) (R (AR 17));
  (* 175 *) MOV (M (AR 1) 56) (R (AR 19));
  (* 176 *) ARM (ASUB true true (R (AR 15)) (R (AR 7)) (AR 7));
  (* 177 *) ARM (ASUB true true (R (AR 16)) (R (AR 8)) (AR 8));
  (* 178 *) ARM (ASUB true true (R (AR 17)) (R (AR 9)) (AR 9));
  (* 179 *) ARM (ASUB true true (R (AR 19)) (R (AR 10)) (AR 10));
  (* 181 *) MOV (M (AR 0) 64) (R (AR 11));
  (* 181 *) MOV (M (AR 0) 72) (R (AR 12));
  (* 182 *) MOV (M (AR 1) 64) (R (AR 15));
  (* 182 *) MOV (M (AR 1) 72) (R (AR 16));
  (* 183 *) MOV (M (AR 0) 80) (R (AR 13));
  (* 183 *) MOV (M (AR 0) 88) (R (AR 14));
  (* 184 *) MOV (M (AR 1) 80) (R (AR 17));
  (* 184 *) MOV (M (AR 1) 88) (R (AR 19));
  (* 185 *) ARM (ASUB true true (R (AR 15)) (R (AR 11)) (AR 11));
  (* 186 *) ARM (ASUB true true (R (AR 16)) (R (AR 12)) (AR 12));
  (* 187 *) ARM (ASUB true true (R (AR 17)) (R (AR 13)) (AR 13));
  (* 188 *) ARM (ASUB true true (R (AR 19)) (R (AR 14)) (AR 14));
  (* 189 *) ARM (ASUB true false (Imm 0) (Imm 0) (AR 15));
  (* 192 *) MOV (G 1 0) (R (AR 16));
  (* 192 *) MOV (G 1 8) (R (AR 17));
  (* 193 *) ARM (AAND (R (AR 15)) (R (AR 16)) (AR 16));
  (* 194 *) ARM (AAND (R (AR 15)) (R (AR 17)) (AR 17));
  (* 195 *) MOV (G 1 40) (R (AR 19));
  (* 195 *) MOV (G 1 48) (R (AR 20));
  (* 196 *) ARM (AAND (R (AR 15)) (R (AR 19)) (AR 19));
  (* 197 *) ARM (AAND (R (AR 15)) (R (AR 20)) (AR 20));
  (* 199 *) ARM (AADD false true (R (AR 16)) (R (AR 3)) (AR 3));
  (* 200 *) ARM (AADD true true (R (AR 17)) (R (AR 4)) (AR 4));
  (* 201 *) MOV (R (AR 3)) (M (AR 2) 0);
  (* 201 *) MOV (R (AR 4)) (M (AR 2) 8);
  (* 202 *) ARM (AADD true true (R (AR 17)) (R (AR 5)) (AR 5));
  (* 203 *) ARM (AADD true true (R (AR 17)) (R (AR 6)) (AR 6));
  (* 204 *) MOV (R (AR 5)) (M (AR 2) 16);
  (* 204 *) MOV (R (AR 6)) (M (AR 2) 24);
  (* 205 *) ARM (AADD true true (R (AR 17)) (R (AR 7)) (AR 7));
  (* 206 *) ARM (AADD true true (R (AR 19)) (R (AR 8)) (AR 8));
  (* 207 *) MOV (R (AR 7)) (M (AR 2) 32);
  (* 207 *) MOV (R (AR 8)) (M (AR 2) 40);
  (* 208 *) ARM (AADD true true (R (AR 20)) (R (AR 9)) (AR 9));
  (* 210 *) MOV (G 1 56) (R (AR 16));
  (* 210 *) MOV (G 1 64) (R (AR 17));
  (* 211 *) ARM (AAND (R (AR 15)) (R (AR 16)) (AR 16));
  (* 212 *) ARM (AAND (R (AR 15)) (R (AR 17)) (AR 17));
  (* 213 *) MOV (G 1 72) (R (AR 19));
  (* 213 *) MOV (G 1 80) (R (AR 20));
  (* 214 *) ARM (AAND (R (AR 15)) (R (AR 19)) (AR 19));
  (* 215 *) ARM (AAND (R (AR 15)) (R (AR 20)) (AR 20));
  (* 217 *) ARM (AADD true true (R (AR 16)) (R (AR 10)) (AR 10));
  (* 218 *) MOV (R (AR 9)) (M (AR 2) 48);
  (* 218 *) MOV (R (AR 10)) (M (AR 2) 56);
  (* 219 *) ARM (AADD true true (R (AR 17)) (R (AR 11)) (AR 11));
  (* 220 *) ARM (AADD true true (R (AR 19)) (R (AR 12)) (AR 12));
  (* 221 *) MOV (R (AR 11)) (M (AR 2) 64);
  (* 221 *) MOV (R (AR 12)) (M (AR 2) 72);
  (* 222 *) ARM (AADD true true (R (AR 20)) (R (AR 13)) (AR 13));
  (* 224 *) MOV (G 1 88) (R (AR 16));
  (* 225 *) ARM (AAND (R (AR 15)) (R (AR 16)) (AR 16));
  (* 226 *) ARM (AADD true false (R (AR 16)) (R (AR 14)) (AR 14));
  (* 227 *) MOV (R (AR 13)) (M (AR 2) 80);
  (* 227 *) MOV (R (AR 14)) (M (AR 2) 88)].
(* adlP751, arith_arm64.s from line 231, frame of 0 bytes *)
Definition adlP751Arm : list instr := [
  (* 232 *) MOV (A 0) (R (AR 2));
  (* 233 *) MOV (A 8) (R (AR 0));
  (* 234 *) MOV (A 16) (R (AR 1));
  (* 236 *) MOV (M (AR 0) 0) (R (AR 3));
  (* 236 *) MOV (M (AR 0) 8) (R (AR 4));
  (* 237 *) MOV (M (AR 1) 0) (R (AR 15));
  (* 237 *) MOV (M (AR 1) 8) (R (AR 16));
  (* 238 *) MOV (M (AR 0) 16) (R (AR 5));
  (* 238 *) MOV (M (AR 0) 24) (R (AR 6));
  (* 239 *) MOV (M (AR 1) 16) (R (AR 17));
  (* 239 *) MOV (M (AR 1) 24) (R (AR 19));
  (* 240 *) ARM (AADD false true (R (AR 15)) (R (AR 3)) (AR 3));
  (* 241 *) ARM (AADD true true (R (AR 16)) (R (AR 4)) (AR 4));
  (* 242 *) MOV (R (AR 3)) (M (AR 2) 0);
  (* 242 *) MOV (R (AR 4)) (M (AR 2) 8);
  (* 243 *) ARM (AADD true true (R (AR 17)) (R (AR 5)) (AR 5));
  (* 244 *) ARM (AADD true true (R (AR 19)) (R (AR 6)) (AR 6));
  (* 245 *) MOV (R (AR 5)) (M (AR 2) 16);
  (* 245 *) MOV (R (AR 6)) (M (AR 2) 24);
  (* 247 *) MOV (M (AR 0) 32) (R (AR 7));
  (* 247 *) MOV (M (AR 0) 40) (R (AR 8));
  (* 248 *) MOV (M (AR 1) 32) (R (AR 15));
  (* 248 *) MOV (M (AR 1) 40) (R (AR 16));
  (* 249 *) MOV (M (AR 0) 48) (R (AR 9));
  (* 249 *) MOV (M (AR 0) 56) (R (AR 10));
  (* 250 *) MOV (M (AR 1) 48) (R (AR 17));
  (* 250 *) MOV (M (AR 1) 56) (R (AR 19));
  (* 251 *) ARM (AADD true true (R (AR 15)) (R (AR 7)) (AR 7));
  (* 252 *) ARM (AADD true true (R (AR 16)) (R (AR 8)) (AR 8));
  (* 253 *) MOV (R (AR 7)) (M (AR 2) 32);
  (* 253 *) MOV (R (AR 8)) (M (AR 2) 40);
  (* 254 *) ARM (AADD true true (R (AR 17)) (R (AR 9)) (AR 9));
  (* 255 *) ARM (AADD true true (R (AR 19)) (R (AR 10)) (AR 10));
  (* 256 *) MOV (R (AR 9)) (M (AR 2) 48);
  (* 256 *) MOV (R (AR 10)) (M (AR 2) 56);
  (* 258 *) MOV (M (AR 0) 64) (R (AR 11));
  (* 258 *) MOV (M (AR 0) 72) (R (AR 12));
  (* 259 *) MOV (M (AR 1) 64) (R (AR 15));
  (* 259 *) MOV (M (AR 1) 72) (R (AR 16));
  (* 260 *) MOV (M (AR 0) 80) (R (AR 13));
  (* 260 *) MOV (M (AR 0) 88) (R (AR 14));
  (* 261 *) MOV (M (AR 1) 80) (R (AR 17));
  (* 261 *) MOV (M (AR 1) 88) (R (AR 19));
  (* 262 *) ARM (AADD true true (R (AR 15)) (R (AR 11)) (AR 11));
  (* 263 *) ARM (AADD true true (R (AR 16)) (R (AR 12)) (AR 12));
  (* 264 *) MOV (R (AR 11)) (M (AR 2) 64);
  (* 264 *) MOV (R (AR 12)) (M (AR 2) 72);
  (* 265 *) ARM (AADD true true (R (AR 17)) (R (AR 13)) (AR 13));
  (* 266 *) ARM (AADD true true (R (AR 19)) (R (AR 14)) (AR 14));
  (* 267 *) MOV (R (AR 13)) (M (AR 2) 80);
  (* 267 *) MOV (R (AR 14)) (M (AR 2) 88);
  (* 269 *) MOV (M (AR 0) 96) (R (AR 3));
  (* 269 *) MOV (M (AR 0) 104) (R (AR 4));
  (* 270 *) MOV (M (AR 1) 96) (R (AR 15));
  (* 270 *) MOV (M (AR 1) 104) (R (AR 16));
  (* 271 *) MOV (M (AR 0) 112) (R (AR 5));
  (* 271 *) MOV (M (AR 0) 120) (R (AR 6));
  (* 272 *) MOV (M (AR 1) 112) (R (AR 17));
  (* 272 *) MOV (M (AR 1) 120) (R (AR 19));
  (* 273 *) ARM (AADD true true (R (AR 15)) (R (AR 3)) (AR 3));
  (* 274 *) ARM (AADD true true (R (AR 16)) (R (AR 4)) (AR 4));
  (* 275 *) MOV (R (AR 3)) (M (AR 2) 96);
  (* 275 *) MOV (R (AR 4)) (M (AR 2) 104);
  (* 276 *) ARM (AADD true true (R (AR 17)) (R (AR 5)) (AR 5));
  (* 277 *) ARM (AADD true true (R (AR 19)) (R (AR 6)) (AR 6));
  (* 278 *) MOV (R (AR 5)) (M (AR 2) 112);
  (* 278 *) MOV (R (AR 6)) (M (AR 2) 120);
  (* 280 *) MOV (M (AR 0) 128) (R (AR 7));
  (* 280 *) MOV (M (AR 0) 136) (R (AR 8));
  (* 281 *) MOV (M (AR 1) 128) (R (AR 15));
  (* 281 *) MOV (M (AR 1) 136) (R (AR 16));
  (* 282 *) MOV (M (AR 0) 144) (R (AR 9));
  (* 282 *) MOV (M (AR 0) 152) (R (AR 10));
  (* 283 *) MOV (M (AR 1) 144) (R (AR 17));
  (* 283 *) MOV (M (AR 1) 152) (R (AR 19));
  (* 284 *) ARM (AADD true true (R (AR 15)) (R (AR 7)) (AR 7));
  (* 285 *) ARM (AADD true true (R (AR 16)) (R (AR 8)) (AR 8));
  (* 286 *) MOV (R (AR 7)) (M (AR 2) 128);
  (* 286 *) MOV (R (AR 8)) (M (AR 2) 136);
  (* 287 *) ARM (AADD true true (R (AR 17)) (R (AR 9)) (AR 9));
  (* 288 *) ARM (AADD true true (R (AR 19)) (R (AR 10)) (AR 10));
  (* 289 *) MOV (R (AR 9)) (M (AR 2) 144);
  (* 289 *) MOV (R (AR 10)) (M (AR 2) 152);
  (* 291 *) MOV (M (AR 0) 160) (R (AR 11));
  (* 291 *) MOV (M (AR 0) 168) (R (AR 12));
  (* 292 *) MOV (M (AR 1) 160) (R (AR 15));
  (* 292 *) MOV (M (AR 1) 168) (R (AR 16));
  (* 293 *) MOV (M (AR 0) 176) (R (AR 13));
  (* 293 *) MOV (M (AR 0) 184) (R (AR 14));
  (* 294 *) MOV (M (AR 1) 176) (R (AR 17));
  (* 294 *) MOV (M (AR 1) 184) (R (AR 19));
  (* 295 *) ARM (AADD true true (R (AR 15)) (R (AR 11)) (AR 11));
  (* 296 *) ARM (AADD true true (R (AR 16)) (R (AR 12)) (AR 12));
  (* 297 *) MOV (R (AR 11)) (M (AR 2) 160);
  (* 297 *) MOV (R (AR 12)) (M (AR 2) 168);
  (* 298 *) ARM (AADD true true (R (AR 17)) (R (AR 13)) (AR 13));
  (* 299 *) ARM (AADD true false (R (AR 19)) (R (AR 14)) (AR 14));
  (* 300 *) MOV (R (AR 13)) (M (AR 2) 176);
  (* 300 *) MOV (R (AR 14)) (M (AR 2) 184)].
(* sulP751, arith_arm64.s from line 304, frame of 0 bytes *)
Definition sulP751Arm : list instr := [
  (* 305 *) MOV (A 0) (R (AR 2));
  (* 306 *) MOV (A 8) (R (AR 0));
  (* 307 *) MOV (A 16) (R (AR 1));
  (* 309 *) MOV (M (AR 0) 0) (R (AR 3));
  (* 309 *) MOV (M (AR 0) 8) (R (AR 4));
  (* 310 *) MOV (M (AR 1) 0) (R (AR 15));
  (* 310 *) MOV (M (AR 1) 8) (R (AR 16));
  (* 311 *) MOV (M (AR 0) 16) (R (AR 5));
  (* 311 *) MOV (M (AR 0) 24) (R (AR 6));
  (* 312 *) MOV (M (AR 1) 16) (R (AR 17));
  (* 312 *) MOV (M (AR 1) 24) (R (AR 19));
  (* 313 *) ARM (ASUB false true (R (AR 15)) (R (AR 3)) (AR 3));
  (* 314 *) ARM (ASUB true true (R (AR 16)) (R (AR 4)) (AR 4));
  (* 315 *) MOV (R (AR 3)) (M (AR 2) 0);
  (* 315 *) MOV (R (AR 4)) (M (AR 2) 8);
  (* 316 *) ARM (ASUB true true (R (AR 17)) (R (AR 5)) (AR 5));
  (* 317 *) ARM (ASUB true true (R (AR 19)) (R (AR 6)) (AR 6));
  (* 318 *) MOV (R (AR 5)) (M (AR 2) 16);
  (* 318 *) MOV (R (AR 6)) (M (AR 2) 24);
  (* 320 *) MOV (M (AR 0) 32) (R (AR 7));
  (* 320 *) MOV (M (AR 0) 40) (R (AR 8));
  (* 321 *) MOV (M (AR 1) 32) (R (AR 15));
  (* 321 *) MOV (M (AR 1) 40) (R (AR 16));
  (* 322 *) MOV (M (AR 0) 48) (R (AR 9));
  (* 322 *) MOV (M (AR 0) 56) (R (AR 10));
  (* 323 *) MOV (M (AR 1) 48) (R (AR 17));
  (* 323 *) MOV (M (AR 1) 56) (R (AR 19));
  (* 324 *) ARM (ASUB true true (R (AR 15)) (R (AR 7)) (AR 7));
  (* 325 *) ARM (ASUB true true (R (AR 16)) (R (AR 8)) (AR 8));
  (* 326 *) MOV (R (AR 7)) (M (AR 2) 32);
  (* 326 *) MOV (R (AR 8)) (M (AR 2) 40);
  (* 327 *) ARM (ASUB true true (R (AR 17)) (R (AR 9)) (AR 9));
  (* 328 *) ARM (ASUB true true (R (AR 19)) (R (AR 10)) (AR 10));
  (* 329 *) MOV (R (AR 9)) (M (AR 2) 48);
  (* 329 *) MOV (R (AR 10)) (M (AR 2) 56);
  (* 331 *) MOV (M (AR 0) 64) (R (AR 11));
  (* 331 *) MOV (M (AR 0) 72) (R (AR 12));
  (* 332 *) MOV (M (AR 1) 64) (R (AR 15));
  (* 332 *) MOV (M (AR 1) 72) (R (AR 16));
  (* 333 *) MOV (M (AR 0) 80) (R (AR 13));
  (* 333 *) MOV (M (AR 0) 88) (R (AR 14));
  (* 334 *) MOV (M (AR 1) 80) (R (AR 17));
  (* 334 *) MOV (M (AR 1) 88) (R (AR 19));
  (* 335 *) ARM (ASUB true true (R (AR 15)) (R (AR 11)) (AR 11));
  (* 336 *) ARM (ASUB true true (R (AR 16)) (R (AR 12)) (AR 12));
  (* 337 *) MOV (R (AR 11)) (M (AR 2) 64);
  (* 337 *) MOV (R (AR 12)) (M (AR 2) 72);
  (* 338 *) ARM (ASUB true true (R (AR 17)) (R (AR 13)) (AR 13));
  (* 339 *) ARM (ASUB true true (R (AR 19)) (R (AR 14)) (AR 14));
  (* 340 *) MOV (R (AR 13)) (M (AR 2) 80);
  (* 340 *) MOV (R (AR 14)) (M (AR 2) 88);
  (* 342 *) MOV (M (AR 0) 96) (R (AR 3));
  (* 342 *) MOV (M (AR 0) 104) (R (AR 4));
  (* 343 *) MOV (M (AR 1) 96) (R (AR 15));
  (* 343 *) MOV (M (AR 1) 104) (R (AR 16));
  (* 344 *) MOV (M (AR 0) 112) (R (AR 5));
  (* 344 *) MOV (M (AR 0) 120) (R (AR 6));
  (* 345 *) MOV (M (AR 1) 112) (R (AR 17));
  (* 345 *) MOV (M (AR 1) 120) (R (AR 19));
  (* 346 *) ARM (ASUB true true (R (AR 15)) (R (AR 3)) (AR 3));
  (* 347 *) ARM (ASUB true true (R (AR 16)) (R (AR 4)) (AR 4));
  (* 348 *) ARM (ASUB true true (R (AR 17)) (R (AR 5)) (AR 5));
  (* 349 *) ARM (ASUB true true (R (AR 19)) (R (AR 6)) (AR 6));
  (* 351 *) MOV (M (AR 0) 128) (R (AR 7));
  (* 351 *) MOV (M (AR 0) 136) (R (AR 8));
  (* 352 *) MOV (M (AR 1) 128) (R (AR 15));
  (* 352 *) MOV (M (AR 1) 136) (R (AR 16));
  (* 353 *) MOV (M (AR 0) 144) (R (AR 9));
  (* 353 *) MOV (M (AR 0) 152) (R (AR 10));
  (* 354 *) MOV (M (AR 1) 144) (R (AR 17));
  (* 354 *) MOV (M (AR 1) 152) (R (AR 19));
  (* 355 *) ARM (ASUB true true (R (AR 15)) (R (AR 7)) (AR 7));
  (* 356 *) ARM (ASUB true true (R (AR 16)) (R (AR 8)) (AR 8));
  (* 357 *) ARM (ASUB true true (R (AR 17)) (R (AR 9)) (AR 9));
  (* 358 *) ARM (ASUB true true (R (AR 19)) (R (AR 10)) (AR 10));
  (* 360 *) MOV (M (AR 0) 160) (R (AR 11));
  (* 360 *) MOV (M (AR 0) 168) (R (AR 12));
  (* 361 *) MOV (M (AR 1) 160) (R (AR 15));
  (* 361 *) MOV (M (AR 1) 168) (R (AR 16));
  (* 362 *) MOV (M (AR 0) 176) (R (AR 13));
  (* 362 *) MOV (M (AR 0) 184) (R (AR 14));
  (* 363 *) MOV (M (AR 1) 176) (R (AR 17));
  (* 363 *) MOV (M (AR 1) 184) (R (AR 19));
  (* 364 *) ARM (ASUB true true (R (AR 15)) (R (AR 11)) (AR 11));
  (* 365 *) ARM (ASUB true true (R (AR 16)) (R (AR 12)) (AR 12));
  (* 366 *) ARM (ASUB true true (R (AR 17)) (R (AR 13)) (AR 13));
  (* 367 *) ARM (ASUB true true (R (AR 19)) (R (AR 14)) (AR 14));
  (* 368 *) ARM (ASUB true false (Imm 0) (Imm 0) (AR 15));
  (* 371 *) MOV (G 0 0) (R (AR 20));
  (* 372 *) ARM (AAND (R (AR 15)) (R (AR 20)) (AR 20));
  (* 373 *) MOV (G 0 40) (R (AR 16));
  (* 373 *) MOV (G 0 48) (R (AR 17));
  (* 374 *) ARM (AADD false true (R (AR 20)) (R (AR 3)) (AR 3));
  (* 375 *) ARM (AADD true true (R (AR 20)) (R (AR 4)) (AR 4));
  (* 376 *) MOV (R (AR 3)) (M (AR 2) 96);
  (* 376 *) MOV (R (AR 4)) (M (AR 2) 104);
  (* 377 *) ARM (AADD true true (R (AR 20)) (R (AR 5)) (AR 5));
  (* 378 *) ARM (AADD true true (R (AR 20)) (R (AR 6)) (AR 6));
  (* 379 *) MOV (R (AR 5)) (M (AR 2) 112);
  (* 379 *) MOV (R (AR 6)) (M (AR 2) 120);
  (* 380 *) ARM (AADD true true (R (AR 20)) (R (AR 7)) (AR 7));
  (* 382 *) MOV (G 0 56) (R (AR 19));
  (* 382 *) MOV (G 0 64) (R (AR 20));
  (* 383 *) ARM (AAND (R (AR 15)) (R (AR 16)) (AR 16));
  (* 384 *) ARM (AAND (R (AR 15)) (R (AR 17)) (AR 17));
  (* 385 *) ARM (AADD true true (R (AR 16)) (R (AR 8)) (AR 8));
  (* 386 *) MOV (R (AR 7)) (M (AR 2) 128);
  (* 386 *) MOV (R (AR 8)) (M (AR 2) 136);
  (* 387 *) ARM (AADD true true (R (AR 17)) (R (AR 9)) (AR 9));
  (* 389 *) MOV (G 0 72) (R (AR 16));
  (* 389 *) MOV (G 0 80) (R (AR 17));
  (* 390 *) ARM (AAND (R (AR 15)) (R (AR 19)) (AR 19));
  (* 391 *) ARM (AAND (R (AR 15)) (R (AR 20)) (AR 20));
  (* 392 *) ARM (AADD true true (R (AR 19)) (R (AR 10)) (AR 10));
  (* 393 *) MOV (R (AR 9)) (M (AR 2) 144);
  (* 393 *) MOV (R (AR 10)) (M (AR 2) 152);
  (* 394 *) ARM (AADD true true (R (AR 20)) (R (AR 11)) (AR 11));
  (* 396 *) MOV (G 0 88) (R (AR 19));
  (* 397 *) ARM (AAND (R (AR 15)) (R (AR 16)) (AR 16));
  (* 398 *) ARM (AAND (R (AR 15)) (R (AR 17)) (AR 17));
  (* 399 *) ARM (AADD true true (R (AR 16)) (R (AR 12)) (AR 12));
  (* 400 *) MOV (R (AR 11)) (M (AR 2) 160);
  (* 400 *) MOV (R (AR 12)) (M (AR 2) 168);
  (* 401 *) ARM (AADD true true (R (AR 17)) (R (AR 13)) (AR 13));
  (* 403 *) ARM (AAND (R (AR 15)) (R (AR 19)) (AR 19));
  (* 404 *) ARM (AADD true false (R (AR 19)) (R (AR 14)) (AR 14));
  (* 405 *) MOV (R (AR 13)) (M (AR 2) 176);
  (* 405 *) MOV (R (AR 14)) (M (AR 2) 184)].
(* mulP751, arith_arm64.s from line 568, frame of 0 bytes *)
Definition mulP751Arm : list instr := [
  (* 569 *) MOV (A 0) (R (AR 2));
  (* 570 *) MOV (A 8) (R (AR 0));
  (* 571 *) MOV (A 16) (R (AR 1));
  (* 575 *) MOV (M (AR 0) 0) (R (AR 3));
  (* 575 *) MOV (M (AR 0) 8) (R (AR 4));
  (* 576 *) MOV (M (AR 0) 48) (R (AR 9));
  (* 576 *) MOV (M (AR 0) 56) (R (AR 10));
  (* 577 *) ARM (AADD false true (R (AR 9)) (R (AR 3)) (AR 3));
  (* 578 *) ARM (AADD true true (R (AR 10)) (R (AR 4)) (AR 4));
  (* 579 *) MOV (M (AR 0) 16) (R (AR 5));
  (* 579 *) MOV (M (AR 0) 24) (R (AR 6));
  (* 580 *) MOV (M (AR 0) 64) (R (AR 11));
  (* 580 *) MOV (M (AR 0) 72) (R (AR 12));
  (* 581 *) ARM (AADD true true (R (AR 11)) (R (AR 5)) (AR 5));
  (* 582 *) ARM (AADD true true (R (AR 12)) (R (AR 6)) (AR 6));
  (* 583 *) MOV (M (AR 0) 32) (R (AR 7));
  (* 583 *) MOV (M (AR 0) 40) (R (AR 8));
  (* 584 *) MOV (M (AR 0) 80) (R (AR 13));
  (* 584 *) MOV (M (AR 0) 88) (R (AR 14));
  (* 585 *) ARM (AADD true true (R (AR 13)) (R (AR 7)) (AR 7));
  (* 586 *) ARM (AADD true true (R (AR 14)) (R (AR 8)) (AR 8));
  (* 587 *) ARM (AADD true false (Imm 0) (Imm 0) (AR 22));
  (* 591 *) MOV (M (AR 1) 0) (R (AR 9));
  (* 591 *) MOV (M (AR 1) 8) (R (AR 10));
  (* 592 *) MOV (M (AR 1) 48) (R (AR 15));
  (* 592 *) MOV (M (AR 1) 56) (R (AR 16));
  (* 593 *) ARM (AADD false true (R (AR 15)) (R (AR 9)) (AR 9));
  (* 594 *) ARM (AADD true true (R (AR 16)) (R (AR 10)) (AR 10));
  (* 595 *) MOV (M (AR 1) 16) (R (AR 11));
  (* 595 *) MOV (M (AR 1) 24) (R (AR 12));
  (* 596 *) MOV (M (AR 1) 64) (R (AR 17));
  (* 596 *) MOV (M (AR 1) 72) (R (AR 19));
  (* 597 *) ARM (AADD true true (R (AR 17)) (R (AR 11)) (AR 11));
  (* 598 *) ARM (AADD true true (R (AR 19)) (R (AR 12)) (AR 12));
  (* 599 *) MOV (M (AR 1) 32) (R (AR 13));
  (* 599 *) MOV (M (AR 1) 40) (R (AR 14));
  (* 600 *) MOV (M (AR 1) 80) (R (AR 20));
  (* 600 *) MOV (M (AR 1) 88) (R (AR 21));
  (* 601 *) ARM (AADD true true (R (AR 20)) (R (AR 13)) (AR 13));
  (* 602 *) ARM (AADD true true (R (AR 21)) (R (AR 14)) (AR 14));
  (* 603 *) ARM (AADD true false (Imm 0) (Imm 0) (AR 23));
  (* 606 *) ARM (ASUB false false (R (AR 22)) (Imm 0) (AR 24));
  (* 607 *) ARM (ASUB false false (R (AR 23)) (Imm 0) (AR 25));
  (* 608 *) ARM (AAND (R (AR 23)) (R (AR 22)) (AR 22));
  (* 613 *) MOV (R (AR 6)) (M (AR 2) 0);
  (* 613 *) MOV (R (AR 7)) (M (AR 2) 8);
  (* 614 *) ARM (AAND (R (AR 25)) (R (AR 3)) (AR 15));
  (* 615 *) ARM (AAND (R (AR 25)) (R (AR 4)) (AR 16));
  (* 616 *) MOV (R (AR 8)) (M (AR 2) 16);
  (* 616 *) MOV (R (AR 12)) (M (AR 2) 24);
  (* 617 *) ARM (AAND (R (AR 25)) (R (AR 5)) (AR 17));
  (* 618 *) ARM (AAND (R (AR 25)) (R (AR 6)) (AR 19));
  (* 619 *) MOV (R (AR 13)) (M (AR 2) 32);
  (* 619 *) MOV (R (AR 14)) (M (AR 2) 40);
  (* 620 *) ARM (AAND (R (AR 25)) (R (AR 7)) (AR 20));
  (* 621 *) ARM (AAND (R (AR 25)) (R (AR 8)) (AR 21));
  (* 625 *) ARM (AAND (R (AR 24)) (R (AR 9)) (AR 25));
  (* 626 *) ARM (AAND (R (AR 24)) (R (AR 10)) (AR 26));
  (* 627 *) ARM (AADD false true (R (AR 25)) (R (AR 15)) (AR 15));
  (* 628 *) ARM (AADD true true (R (AR 26)) (R (AR 16)) (AR 16));
  (* 629 *) MOV (R (AR 15)) (M (AR 2) 96);
  (* 629 *) MOV (R (AR 16)) (M (AR 2) 104);
  (* 630 *) ARM (AAND (R (AR 24)) (R (AR 11)) (AR 25));
  (* 631 *) ARM (AAND (R (AR 24)) (R (AR 12)) (AR 26));
  (* 632 *) ARM (AADD true true (R (AR 25)) (R (AR 17)) (AR 17));
  (* 633 *) ARM (AADD true true (R (AR 26)) (R (AR 19)) (AR 19));
  (* 634 *) MOV (R (AR 17)) (M (AR 2) 112);
  (* 634 *) MOV (R (AR 19)) (M (AR 2) 120);
  (* 635 *) ARM (AAND (R (AR 24)) (R (AR 13)) (AR 25));
  (* 636 *) ARM (AAND (R (AR 24)) (R (AR 14)) (AR 26));
  (* 637 *) ARM (AADD true true (R (AR 25)) (R (AR 20)) (AR 20));
  (* 638 *) ARM (AADD true true (R (AR 26)) (R (AR 21)) (AR 21));
  (* 639 *) MOV (R (AR 20)) (M (AR 2) 128);
  (* 639 *) MOV (R (AR 21)) (M (AR 2) 136);
  (* 641 *) ARM (AADD true false (Imm 0) (R (AR 22)) (AR 29));
  (* 644 *) ARM (AADD false true (R (AR 3)) (R (AR 6)) (AR 6));
  (* 644 *) ARM (AADD true true (R (AR 4)) (R (AR 7)) (AR 7));
  (* 644 *) ARM (AADD true true (R (AR 5)) (R (AR 8)) (AR 8));
  (* 644 *) ARM (AADD true false (Imm 0) (Imm 0) (AR 26));
  (* 644 *) ARM (AADD false true (R (AR 9)) (R (AR 12)) (AR 12));
  (* 644 *) ARM (AADD true true (R (AR 10)) (R (AR 13)) (AR 13));
  (* 644 *) ARM (AADD true true (R (AR 11)) (R (AR 14)) (AR 14));
  (* 644 *) ARM (AADD true false (Imm 0) (Imm 0) (AR 22));
  (* 644 *) ARM (ASUB false false (R (AR 26)) (Imm 0) (AR 23));
  (* 644 *) ARM (ASUB false false (R (AR 22)) (Imm 0) (AR 24));
  (* 644 *) ARM (AAND (R (AR 22)) (R (AR 26)) (AR 26));
  (* 644 *) ARM (AAND (R (AR 23)) (R (AR 12)) (AR 15));
  (* 644 *) ARM (AAND (R (AR 23)) (R (AR 13)) (AR 16));
  (* 644 *) ARM (AAND (R (AR 23)) (R (AR 14)) (AR 17));
  (* 644 *) ARM (AAND (R (AR 24)) (R (AR 6)) (AR 19));
  (* 644 *) ARM (AAND (R (AR 24)) (R (AR 7)) (AR 20));
  (* 644 *) ARM (AAND (R (AR 24)) (R (AR 8)) (AR 21));
  (* 644 *) ARM (AADD false true (R (AR 19)) (R (AR 15)) (AR 15));
  (* 644 *) ARM (AADD true true (R (AR 20)) (R (AR 16)) (AR 16));
  (* 644 *) MOV (R (AR 15)) (M (AR 2) 48);
  (* 644 *) MOV (R (AR 16)) (M (AR 2) 56);
  (* 644 *) ARM (AMUL (R (AR 6)) (R (AR 12)) (AR 15));
  (* 644 *) ARM (AMUL (R (AR 6)) (R (AR 13)) (AR 16));
  (* 644 *) ARM (AADD true true (R (AR 21)) (R (AR 17)) (AR 17));
  (* 644 *) MOV (R (AR 17)) (M (AR 2) 64);
  (* 644 *) ARM (AUMULH (R (AR 6)) (R (AR 13)) (AR 17));
  (* 644 *) ARM (AUMULH (R (AR 6)) (R (AR 12)) (AR 19));
  (* 644 *) ARM (AADD true false (Imm 0) (R (AR 26)) (AR 26));
  (* 644 *) ARM (AMUL (R (AR 7)) (R (AR 12)) (AR 24));
  (* 644 *) ARM (AUMULH (R (AR 7)) (R (AR 12)) (AR 25));
  (* 644 *) ARM (AADD false true (R (AR 19)) (R (AR 16)) (AR 16));
  (* 644 *) ARM (AADD true true (Imm 0) (R (AR 17)) (AR 17));
  (* 644 *) ARM (AADD true false (Imm 0) (Imm 0) (AR 19));
  (* 644 *) ARM (AMUL (R (AR 6)) (R (AR 14)) (AR 22));
  (* 644 *) ARM (AUMULH (R (AR 6)) (R (AR 14)) (AR 23));
  (* 644 *) ARM (AADD false true (R (AR 24)) (R (AR 16)) (AR 16));
  (* 644 *) ARM (AADD true true (R (AR 25)) (R (AR 17)) (AR 17));
  (* 644 *) ARM (AADD true false (Imm 0) (R (AR 19)) (AR 19));
  (* 644 *) ARM (AMUL (R (AR 7)) (R (AR 13)) (AR 24));
  (* 644 *) ARM (AUMULH (R (AR 7)) (R (AR 13)) (AR 25));
  (* 644 *) ARM (AADD false true (R (AR 22)) (R (AR 17)) (AR 17));
  (* 644 *) ARM (AADD true true (R (AR 23)) (R (AR 19)) (AR 19));
  (* 644 *) ARM (AADD true false (Imm 0) (Imm 0) (AR 20));
  (* 644 *) ARM (AMUL (R (AR 8)) (R (AR 12)) (AR 22));
  (* 644 *) ARM (AUMULH (R (AR 8)) (R (AR 12)) (AR 23));
  (* 644 *) ARM (AADD false true (R (AR 24)) (R (AR 17)) (AR 17));
  (* 644 *) ARM (AADD true true (R (AR 25)) (R (AR 19)) (AR 19));
  (* 644 *) ARM (AADD true false (Imm 0) (R (AR 20)) (AR 20));
  (* 644 *) ARM (AMUL (R (AR 7)) (R (AR 14)) (AR 24));
  (* 644 *) ARM (AUMULH (R (AR 7)) (R (AR 14)) (AR 25));
  (* 644 *) ARM (AADD false true (R (AR 22)) (R (AR 17)) (AR 17));
  (* 644 *) ARM (AADD true true (R (AR 23)) (R (AR 19)) (AR 19));
  (* 644 *) ARM (AADD true false (Imm 0) (R (AR 20)) (AR 20));
  (* 644 *) ARM (AMUL (R (AR 8)) (R (AR 13)) (AR 22));
  (* 644 *) ARM (AUMULH (R (AR 8)) (R (AR 13)) (AR 23));
  (* 644 *) ARM (AADD false true (R (AR 24)) (R (AR 19)) (AR 19));
  (* 644 *) ARM (AADD true true (R (AR 25)) (R (AR 20)) (AR 20));
  (* 644 *) ARM (AADD true false (Imm 0) (Imm 0) (AR 21));
  (* 644 *) ARM (AMUL (R (AR 8)) (R (AR 14)) (AR 24));
  (* 644 *) ARM (AUMULH (R (AR 8)) (R (AR 14)) (AR 25));
  (* 644 *) ARM (AADD false true (R (AR 22)) (R (AR 19)) (AR 19));
  (* 644 *) ARM (AADD true true (R (AR 23)) (R (AR 20)) (AR 20));
  (* 644 *) ARM (AADD true false (Imm 0) (R (AR 21)) (AR 21));
  (* 644 *) ARM (AADD false true (R (AR 24)) (R (AR 20)) (AR 20));
  (* 644 *) ARM (AADD true false (R (AR 25)) (R (AR 21)) (AR 21));
  (* 644 *) ARM (AMUL (R (AR 3)) (R (AR 9)) (AR 6));
  (* 644 *) MOV (M (AR 2) 48) (R (AR 22));
  (* 644 *) MOV (M (AR 2) 56) (R (AR 23));
  (* 644 *) MOV (M (AR 2) 64) (R (AR 24));
  (* 644 *) ARM (AUMULH (R (AR 3)) (R (AR 9)) (AR 12));
  (* 644 *) ARM (AADD false true (R (AR 22)) (R (AR 19)) (AR 19));
  (* 644 *) ARM (AADD true true (R (AR 23)) (R (AR 20)) (AR 20));
  (* 644 *) ARM (AMUL (R (AR 3)) (R (AR 10)) (AR 7));
  (* 644 *) ARM (AADD true true (R (AR 24)) (R (AR 21)) (AR 21));
  (* 644 *) ARM (AADD true false (Imm 0) (R (AR 26)) (AR 26));
  (* 644 *) ARM (AUMULH (R (AR 3)) (R (AR 10)) (AR 8));
  (* 644 *) ARM (AMUL (R (AR 4)) (R (AR 9)) (AR 24));
  (* 644 *) ARM (AUMULH (R (AR 4)) (R (AR 9)) (AR 25));
  (* 644 *) ARM (AADD false true (R (AR 12)) (R (AR 7)) (AR 7));
  (* 644 *) ARM (AADD true true (Imm 0) (R (AR 8)) (AR 8));
  (* 644 *) ARM (AADD true false (Imm 0) (Imm 0) (AR 12));
  (* 644 *) ARM (AMUL (R (AR 3)) (R (AR 11)) (AR 22));
  (* 644 *) ARM (AUMULH (R (AR 3)) (R (AR 11)) (AR 23));
  (* 644 *) ARM (AADD false true (R (AR 24)) (R (AR 7)) (AR 7));
  (* 644 *) ARM (AADD true true (R (AR 25)) (R (AR 8)) (AR 8));
  (* 644 *) ARM (AADD true false (Imm 0) (R (AR 12)) (AR 12));
  (* 644 *) ARM (AMUL (R (AR 4)) (R (AR 10)) (AR 24));
  (* 644 *) ARM (AUMULH (R (AR 4)) (R (AR 10)) (AR 25));
  (* 644 *) ARM (AADD false true (R (AR 22)) (R (AR 8)) (AR 8));
  (* 644 *) ARM (AADD true true (R (AR 23)) (R (AR 12)) (AR 12));
  (* 644 *) ARM (AADD true false (Imm 0) (Imm 0) (AR 13));
  (* 644 *) ARM (AMUL (R (AR 5)) (R (AR 9)) (AR 22));
  (* 644 *) ARM (AUMULH (R (AR 5)) (R (AR 9)) (AR 23));
  (* 644 *) ARM (AADD false true (R (AR 24)) (R (AR 8)) (AR 8));
  (* 644 *) ARM (AADD true true (R (AR 25)) (R (AR 12)) (AR 12));
  (* 644 *) ARM (AADD true false (Imm 0) (R (AR 13)) (AR 13));
  (* 644 *) ARM (AMUL (R (AR 4)) (R (AR 11)) (AR 24));
  (* 644 *) ARM (AUMULH (R (AR 4)) (R (AR 11)) (AR 25));
  (* 644 *) ARM (AADD false true (R (AR 22)) (R (AR 8)) (AR 8));
  (* 644 *) ARM (AADD true true (R (AR 23)) (R (AR 12)) (AR 12));
  (* 644 *) ARM (AADD true false (Imm 0) (R (AR 13)) (AR 13));
  (* 644 *) ARM (AMUL (R (AR 5)) (R (AR 10)) (AR 22));
  (* 644 *) ARM (AUMULH (R (AR 5)) (R (AR 10)) (AR 23));
  (* 644 *) ARM (AADD false true (R (AR 24)) (R (AR 12)) (AR 12));
  (* 644 *) ARM (AADD true true (R (AR 25)) (R (AR 13)) (AR 13));
  (* 644 *) ARM (AADD true false (Imm 0) (Imm 0) (AR 14));
  (* 644 *) ARM (AMUL (R (AR 5)) (R (AR 11)) (AR 24));
  (* 644 *) ARM (AUMULH (R (AR 5)) (R (AR 11)) (AR 25));
  (* 644 *) ARM (AADD false true (R (AR 22)) (R (AR 12)) (AR 12));
  (* 644 *) ARM (AADD true true (R (AR 23)) (R (AR 13)) (AR 13));
  (* 644 *) ARM (AADD true false (Imm 0) (R (AR 14)) (AR 14));
  (* 644 *) ARM (AADD false true (R (AR 24)) (R (AR 13)) (AR 13));
  (* 644 *) ARM (AADD true false (R (AR 25)) (R (AR 14)) (AR 14));
  (* 644 *) MOV (R (AR 6)) (M (AR 2) 48);
  (* 644 *) MOV (R (AR 7)) (M (AR 2) 56);
  (* 644 *) MOV (R (AR 8)) (M (AR 2) 64);
  (* 644 *) ARM (ASUB false true (R (AR 6)) (R (AR 15)) (AR 15));
  (* 644 *) ARM (ASUB true true (R (AR 7)) (R (AR 16)) (AR 16));
  (* 644 *) MOV (M (AR 2) 0) (R (AR 6));
  (* 644 *) MOV (M (AR 2) 8) (R (AR 7));
  (* 644 *) ARM (ASUB true true (R (AR 8)) (R (AR 17)) (AR 17));
  (* 644 *) MOV (M (AR 2) 16) (R (AR 8));
  (* 644 *) ARM (ASUB true true (R (AR 12)) (R (AR 19)) (AR 19));
  (* 644 *) ARM (ASUB true true (R (AR 13)) (R (AR 20)) (AR 20));
  (* 644 *) ARM (ASUB true true (R (AR 14)) (R (AR 21)) (AR 21));
  (* 644 *) ARM (ASUB true false (Imm 0) (R (AR 26)) (AR 26));
  (* 644 *) ARM (AADD false true (R (AR 12)) (R (AR 15)) (AR 15));
  (* 644 *) ARM (AADD true true (R (AR 13)) (R (AR 16)) (AR 16));
  (* 644 *) MOV (M (AR 2) 24) (R (AR 12));
  (* 644 *) MOV (M (AR 2) 32) (R (AR 13));
  (* 644 *) ARM (AMUL (R (AR 6)) (R (AR 12)) (AR 3));
  (* 644 *) ARM (AADD true true (R (AR 14)) (R (AR 17)) (AR 17));
  (* 644 *) ARM (AUMULH (R (AR 6)) (R (AR 12)) (AR 9));
  (* 644 *) MOV (M (AR 2) 40) (R (AR 14));
  (* 644 *) ARM (AMUL (R (AR 6)) (R (AR 13)) (AR 4));
  (* 644 *) ARM (AADD true true (Imm 0) (R (AR 19)) (AR 19));
  (* 644 *) ARM (AUMULH (R (AR 6)) (R (AR 13)) (AR 5));
  (* 644 *) ARM (AADD true true (Imm 0) (R (AR 20)) (AR 20));
  (* 644 *) ARM (AADD true true (Imm 0) (R (AR 21)) (AR 21));
  (* 644 *) ARM (AADD true false (Imm 0) (R (AR 26)) (AR 26));
  (* 644 *) ARM (AMUL (R (AR 7)) (R (AR 12)) (AR 24));
  (* 644 *) ARM (AUMULH (R (AR 7)) (R (AR 12)) (AR 25));
  (* 644 *) ARM (AADD false true (R (AR 9)) (R (AR 4)) (AR 4));
  (* 644 *) ARM (AADD true true (Imm 0) (R (AR 5)) (AR 5));
  (* 644 *) ARM (AADD true false (Imm 0) (Imm 0) (AR 9));
  (* 644 *) ARM (AMUL (R (AR 6)) (R (AR 14)) (AR 22));
  (* 644 *) ARM (AUMULH (R (AR 6)) (R (AR 14)) (AR 23));
  (* 644 *) ARM (AADD false true (R (AR 24)) (R (AR 4)) (AR 4));
  (* 644 *) ARM (AADD true true (R (AR 25)) (R (AR 5)) (AR 5));
  (* 644 *) ARM (AADD true false (Imm 0) (R (AR 9)) (AR 9));
  (* 644 *) ARM (AMUL (R (AR 7)) (R (AR 13)) (AR 24));
  (* 644 *) ARM (AUMULH (R (AR 7)) (R (AR 13)) (AR 25));
  (* 644 *) ARM (AADD false true (R (AR 22)) (R (AR 5)) (AR 5));
  (* 644 *) ARM (AADD true true (R (AR 23)) (R (AR 9)) (AR 9));
  (* 644 *) ARM (AADD true false (Imm 0) (Imm 0) (AR 10));
  (* 644 *) ARM (AMUL (R (AR 8)) (R (AR 12)) (AR 22));
  (* 644 *) ARM (AUMULH (R (AR 8)) (R (AR 12)) (AR 23));
  (* 644 *) ARM (AADD false true (R (AR 24)) (R (AR 5)) (AR 5));
  (* 644 *) ARM (AADD true true (R (AR 25)) (R (AR 9)) (AR 9));
  (* 644 *) ARM (AADD true false (Imm 0) (R (AR 10)) (AR 10));
  (* 644 *) ARM (AMUL (R (AR 7)) (R (AR 14)) (AR 24));
  (* 644 *) ARM (AUMULH (R (AR 7)) (R (AR 14)) (AR 25));
  (* 644 *) ARM (AADD false true (R (AR 22)) (R (AR 5)) (AR 5));
  (* 644 *) ARM (AADD true true (R (AR 23)) (R (AR 9)) (AR 9));
  (* 644 *) ARM (AADD true false (Imm 0) (R (AR 10)) (AR 10));
  (* 644 *) ARM (AMUL (R (AR 8)) (R (AR 13)) (AR 22));
  (* 644 *) ARM (AUMULH (R (AR 8)) (R (AR 13)) (AR 23));
  (* 644 *) ARM (AADD false true (R (AR 24)) (R (AR 9)) (AR 9));
  (* 644 *) ARM (AADD true true (R (AR 25)) (R (AR 10)) (AR 10));
  (* 644 *) ARM (AADD true false (Imm 0) (Imm 0) (AR 11));
  (* 644 *) ARM (AMUL (R (AR 8)) (R (AR 14)) (AR 24));
  (* 644 *) ARM (AUMULH (R (AR 8)) (R (AR 14)) (AR 25));
  (* 644 *) ARM (AADD false true (R (AR 22)) (R (AR 9)) (AR 9));
  (* 644 *) ARM (AADD true true (R (AR 23)) (R (AR 10)) (AR 10));
  (* 644 *) ARM (AADD true false (Imm 0) (R (AR 11)) (AR 11));
  (* 644 *) ARM (AADD false true (R (AR 24)) (R (AR 10)) (AR 10));
  (* 644 *) ARM (AADD true false (R (AR 25)) (R (AR 11)) (AR 11));
  (* 644 *) ARM (ASUB false true (R (AR 3)) (R (AR 15)) (AR 15));
  (* 644 *) ARM (ASUB true true (R (AR 4)) (R (AR 16)) (AR 16));
  (* 644 *) ARM (ASUB true true (R (AR 5)) (R (AR 17)) (AR 17));
  (* 644 *) ARM (ASUB true true (R (AR 9)) (R (AR 19)) (AR 19));
  (* 644 *) ARM (ASUB true true (R (AR 10)) (R (AR 20)) (AR 20));
  (* 644 *) ARM (ASUB true true (R (AR 11)) (R (AR 21)) (AR 21));
  (* 644 *) ARM (ASUB true false (Imm 0) (R (AR 26)) (AR 26));
  (* 644 *) ARM (AADD false true (R (AR 3)) (R (AR 19)) (AR 19));
  (* 644 *) ARM (AADD true true (R (AR 4)) (R (AR 20)) (AR 20));
  (* 644 *) ARM (AADD true true (R (AR 5)) (R (AR 21)) (AR 21));
  (* 644 *) ARM (AADD true true (R (AR 26)) (R (AR 9)) (AR 22));
  (* 644 *) ARM (AADD true true (Imm 0) (R (AR 10)) (AR 23));
  (* 644 *) ARM (AADD true false (Imm 0) (R (AR 11)) (AR 24));
  (* 648 *) MOV (R (AR 15)) (M (AR 2) 72);
  (* 648 *) MOV (R (AR 16)) (M (AR 2) 80);
  (* 649 *) MOV (M (AR 2) 96) (R (AR 3));
  (* 649 *) MOV (M (AR 2) 104) (R (AR 4));
  (* 650 *) ARM (AADD false true (R (AR 3)) (R (AR 19)) (AR 19));
  (* 651 *) MOV (R (AR 17)) (M (AR 2) 88);
  (* 651 *) MOV (R (AR 19)) (M (AR 2) 96);
  (* 652 *) ARM (AADD true true (R (AR 4)) (R (AR 20)) (AR 20));
  (* 653 *) MOV (M (AR 2) 112) (R (AR 5));
  (* 653 *) MOV (M (AR 2) 120) (R (AR 6));
  (* 654 *) ARM (AADD true true (R (AR 5)) (R (AR 21)) (AR 21));
  (* 655 *) MOV (R (AR 20)) (M (AR 2) 104);
  (* 655 *) MOV (R (AR 21)) (M (AR 2) 112);
  (* 656 *) ARM (AADD true true (R (AR 6)) (R (AR 22)) (AR 22));
  (* 657 *) MOV (M (AR 2) 128) (R (AR 7));
  (* 657 *) MOV (M (AR 2) 136) (R (AR 8));
  (* 658 *) ARM (AADD true true (R (AR 7)) (R (AR 23)) (AR 23));
  (* 659 *) MOV (R (AR 22)) (M (AR 2) 120);
  (* 659 *) MOV (R (AR 23)) (M (AR 2) 128);
  (* 660 *) ARM (AADD true true (R (AR 8)) (R (AR 24)) (AR 24));
  (* 661 *) MOV (R (AR 24)) (M (AR 2) 136);
  (* 662 *) ARM (AADD true false (Imm 0) (R (AR 29)) (AR 29));
  (* 665 *) MOV (M (AR 0) 0) (R (AR 3));
  (* 665 *) MOV (M (AR 0) 8) (R (AR 4));
  (* 666 *) MOV (M (AR 0) 16) (R (AR 5));
  (* 666 *) MOV (M (AR 0) 24) (R (AR 6));
  (* 667 *) MOV (M (AR 0) 32) (R (AR 7));
  (* 667 *) MOV (M (AR 0) 40) (R (AR 8));
  (* 668 *) MOV (M (AR 1) 0) (R (AR 9));
  (* 668 *) MOV (M (AR 1) 8) (R (AR 10));
  (* 669 *) MOV (M (AR 1) 16) (R (AR 11));
  (* 669 *) MOV (M (AR 1) 24) (R (AR 12));
  (* 670 *) MOV (M (AR 1) 32) (R (AR 13));
  (* 670 *) MOV (M (AR 1) 40) (R (AR 14));
  (* 673 *) ARM (AADD false true (R (AR 3)) (R (AR 6)) (AR 6));
  (* 673 *) ARM (AADD true true (R (AR 4)) (R (AR 7)) (AR 7));
  (* 673 *) ARM (AADD true true (R (AR 5)) (R (AR 8)) (AR 8));
  (* 673 *) ARM (AADD true false (Imm 0) (Imm 0) (AR 26));
  (* 673 *) ARM (AADD false true (R (AR 9)) (R (AR 12)) (AR 12));
  (* 673 *) ARM (AADD true true (R (AR 10)) (R (AR 13)) (AR 13));
  (* 673 *) ARM (AADD true true (R (AR 11)) (R (AR 14)) (AR 14));
  (* 673 *) ARM (AADD true false (Imm 0) (Imm 0) (AR 22));
  (* 673 *) ARM (ASUB false false (R (AR 26)) (Imm 0) (AR 23));
  (* 673 *) ARM (ASUB false false (R (AR 22)) (Imm 0) (AR 24));
  (* 673 *) ARM (AAND (R (AR 22)) (R (AR 26)) (AR 26));
  (* 673 *) ARM (AAND (R (AR 23)) (R (AR 12)) (AR 15));
  (* 673 *) ARM (AAND (R (AR 23)) (R (AR 13)) (AR 16));
  (* 673 *) ARM (AAND (R (AR 23)) (R (AR 14)) (AR 17));
  (* 673 *) ARM (AAND (R (AR 24)) (R (AR 6)) (AR 19));
  (* 673 *) ARM (AAND (R (AR 24)) (R (AR 7)) (AR 20));
  (* 673 *) ARM (AAND (R (AR 24)) (R (AR 8)) (AR 21));
  (* 673 *) ARM (AADD false true (R (AR 19)) (R (AR 15)) (AR 15));
  (* 673 *) ARM (AADD true true (R (AR 20)) (R (AR 16)) (AR 16));
  (* 673 *) MOV (R (AR 15)) (M (AR 2) 0);
  (* 673 *) MOV (R (AR 16)) (M (AR 2) 8);
  (* 673 *) ARM (AMUL (R (AR 6)) (R (AR 12)) (AR 15));
  (* 673 *) ARM (AMUL (R (AR 6)) (R (AR 13)) (AR 16));
  (* 673 *) ARM (AADD true true (R (AR 21)) (R (AR 17)) (AR 17));
  (* 673 *) MOV (R (AR 17)) (M (AR 2) 16);
  (* 673 *) ARM (AUMULH (R (AR 6)) (R (AR 13)) (AR 17));
  (* 673 *) ARM (AUMULH (R (AR 6)) (R (AR 12)) (AR 19));
  (* 673 *) ARM (AADD true false (Imm 0) (R (AR 26)) (AR 26));
  (* 673 *) ARM (AMUL (R (AR 7)) (R (AR 12)) (AR 24));
  (* 673 *) ARM (AUMULH (R (AR 7)) (R (AR 12)) (AR 25));
  (* 673 *) ARM (AADD false true (R (AR 19)) (R (AR 16)) (AR 16));
  (* 673 *) ARM (AADD true true (Imm 0) (R (AR 17)) (AR 17));
  (* 673 *) ARM (AADD true false (Imm 0) (Imm 0) (AR 19));
  (* 673 *) ARM (AMUL (R (AR 6)) (R (AR 14)) (AR 22));
  (* 673 *) ARM (AUMULH (R (AR 6)) (R (AR 14)) (AR 23));
  (* 673 *) ARM (AADD false true (R (AR 24)) (R (AR 16)) (AR 16));
  (* 673 *) ARM (AADD true true (R (AR 25)) (R (AR 17)) (AR 17));
  (* 673 *) ARM (AADD true false (Imm 0) (R (AR 19)) (AR 19));
  (* 673 *) ARM (AMUL (R (AR 7)) (R (AR 13)) (AR 24));
  (* 673 *) ARM (AUMULH (R (AR 7)) (R (AR 13)) (AR 25));
  (* 673 *) ARM (AADD false true (R (AR 22)) (R (AR 17)) (AR 17));
  (* 673 *) ARM (AADD true true (R (AR 23)) (R (AR 19)) (AR 19));
  (* 673 *) ARM (AADD true false (Imm 0) (Imm 0) (AR 20));
  (* 673 *) ARM (AMUL (R (AR 8)) (R (AR 12)) (AR 22));
  (* 673 *) ARM (AUMULH (R (AR 8)) (R (AR 12)) (AR 23));
  (* 673 *) ARM (AADD false true (R (AR 24)) (R (AR 17)) (AR 17));
  (* 673 *) ARM (AADD true true (R (AR 25)) (R (AR 19)) (AR 19));
  (* 673 *) ARM (AADD true false (Imm 0) (R (AR 20)) (AR 20));
  (* 673 *) ARM (AMUL (R (AR 7)) (R (AR 14)) (AR 24));
  (* 673 *) ARM (AUMULH (R (AR 7)) (R (AR 14)) (AR 25));
  (* 673 *) ARM (AADD false true (R (AR 22)) (R (AR 17)) (AR 17));
  (* 673 *) ARM (AADD true true (R (AR 23)) (R (AR 19)) (AR 19));
  (* 673 *) ARM (AADD true false (Imm 0) (R (AR 20)) (AR 20));
  (* 673 *) ARM (AMUL (R (AR 8)) (R (AR 13)) (AR 22));
  (* 673 *) ARM (AUMULH (R (AR 8)) (R (AR 13)) (AR 23));
  (* 673 *) ARM (AADD false true (R (AR 24)) (R (AR 19)) (AR 19));
  (* 673 *) ARM (AADD true true (R (AR 25)) (R (AR 20)) (AR 20));
  (* 673 *) ARM (AADD true false (Imm 0) (Imm 0) (AR 21));
  (* 673 *) ARM (AMUL (R (AR 8)) (R (AR 14)) (AR 24));
  (* 673 *) ARM (AUMULH (R (AR 8)) (R (AR 14)) (AR 25));
  (* 673 *) ARM (AADD false true (R (AR 22)) (R (AR 19)) (AR 19));
  (* 673 *) ARM (AADD true true (R (AR 23)) (R (AR 20)) (AR 20));
  (* 673 *) ARM (AADD true false (Imm 0) (R (AR 21)) (AR 21));
  (* 673 *) ARM (AADD false true (R (AR 24)) (R (AR 20)) (AR 20));
  (* 673 *) ARM (AADD true false (R (AR 25)) (R (AR 21)) (AR 21));
  (* 673 *) ARM (AMUL (R (AR 3)) (R (AR 9)) (AR 6));
  (* 673 *) MOV (M (AR 2) 0) (R (AR 22));
  (* 673 *) MOV (M (AR 2) 8) (R (AR 23));
  (* 673 *) MOV (M (AR 2) 16) (R (AR 24));
  (* 673 *) ARM (AUMULH (R (AR 3)) (R (AR 9)) (AR 12));
  (* 673 *) ARM (AADD false true (R (AR 22)) (R (AR 19)) (AR 19));
  (* 673 *) ARM (AADD true true (R (AR 23)) (R (AR 20)) (AR 20));
  (* 673 *) ARM (AMUL (R (AR 3)) (R (AR 10)) (AR 7));
  (* 673 *) ARM (AADD true true (R (AR 24)) (R (AR 21)) (AR 21));
  (* 673 *) ARM (AADD true false (Imm 0) (R (AR 26)) (AR 26));
  (* 673 *) ARM (AUMULH (R (AR 3)) (R (AR 10)) (AR 8));
  (* 673 *) ARM (AMUL (R (AR 4)) (R (AR 9)) (AR 24));
  (* 673 *) ARM (AUMULH (R (AR 4)) (R (AR 9)) (AR 25));
  (* 673 *) ARM (AADD false true (R (AR 12)) (R (AR 7)) (AR 7));
  (* 673 *) ARM (AADD true true (Imm 0) (R (AR 8)) (AR 8));
  (* 673 *) ARM (AADD true false (Imm 0) (Imm 0) (AR 12));
  (* 673 *) ARM (AMUL (R (AR 3)) (R (AR 11)) (AR 22));
  (* 673 *) ARM (AUMULH (R (AR 3)) (R (AR 11)) (AR 23));
  (* 673 *) ARM (AADD false true (R (AR 24)) (R (AR 7)) (AR 7));
  (* 673 *) ARM (AADD true true (R (AR 25)) (R (AR 8)) (AR 8));
  (* 673 *) ARM (AADD true false (Imm 0) (R (AR 12)) (AR 12));
  (* 673 *) ARM (AMUL (R (AR 4)) (R (AR 10)) (AR 24));
  (* 673 *) ARM (AUMULH (R (AR 4)) (R (AR 10)) (AR 25));
  (* 673 *) ARM (AADD false true (R (AR 22)) (R (AR 8)) (AR 8));
  (* 673 *) ARM (AADD true true (R (AR 23)) (R (AR 12)) (AR 12));
  (* 673 *) ARM (AADD true false (Imm 0) (Imm 0) (AR 13));
  (* 673 *) ARM (AMUL (R (AR 5)) (R (AR 9)) (AR 22));
  (* 673 *) ARM (AUMULH (R (AR 5)) (R (AR 9)) (AR 23));
  (* 673 *) ARM (AADD false true (R (AR 24)) (R (AR 8)) (AR 8));
  (* 673 *) ARM (AADD true true (R (AR 25)) (R (AR 12)) (AR 12));
  (* 673 *) ARM (AADD true false (Imm 0) (R (AR 13)) (AR 13));
  (* 673 *) ARM (AMUL (R (AR 4)) (R (AR 11)) (AR 24));
  (* 673 *) ARM (AUMULH (R (AR 4)) (R (AR 11)) (AR 25));
  (* 673 *) ARM (AADD false true (R (AR 22)) (R (AR 8)) (AR 8));
  (* 673 *) ARM (AADD true true (R (AR 23)) (R (AR 12)) (AR 12));
  (* 673 *) ARM (AADD true false (Imm 0) (R (AR 13)) (AR 13));
  (* 673 *) ARM (AMUL (R (AR 5)) (R (AR 10)) (AR 22));
  (* 673 *) ARM (AUMULH (R (AR 5)) (R (AR 10)) (AR 23));
  (* 673 *) ARM (AADD false true (R (AR 24)) (R (AR 12)) (AR 12));
  (* 673 *) ARM (AADD true true (R (AR 25)) (R (AR 13)) (AR 13));
  (* 673 *) ARM (AADD true false (Imm 0) (Imm 0) (AR 14));
  (* 673 *) ARM (AMUL (R (AR 5)) (R (AR 11)) (AR 24));
  (* 673 *) ARM (AUMULH (R (AR 5)) (R (AR 11)) (AR 25));
  (* 673 *) ARM (AADD false true (R (AR 22)) (R (AR 12)) (AR 12));
  (* 673 *) ARM (AADD true true (R (AR 23)) (R (AR 13)) (AR 13));
  (* 673 *) ARM (AADD true false (Imm 0) (R (AR 14)) (AR 14));
  (* 673 *) ARM (AADD false true (R (AR 24)) (R (AR 13)) (AR 13));
  (* 673 *) ARM (AADD true false (R (AR 25)) (R (AR 14)) (AR 14));
  (* 673 *) MOV (R (AR 6)) (M (AR 2) 0);
  (* 673 *) MOV (R (AR 7)) (M (AR 2) 8);
  (* 673 *) MOV (R (AR 8)) (M (AR 2) 16);
  (* 673 *) ARM (ASUB false true (R (AR 6)) (R (AR 15)) (AR 15));
  (* 673 *) ARM (ASUB true true (R (AR 7)) (R (AR 16)) (AR 16));
  (* 673 *) MOV (M (AR 0) 24) (R (AR 6));
  (* 673 *) MOV (M (AR 0) 32) (R (AR 7));
  (* 673 *) ARM (ASUB true true (R (AR 8)) (R (AR 17)) (AR 17));
  (* 673 *) MOV (M (AR 0) 40) (R (AR 8));
  (* 673 *) ARM (ASUB true true (R (AR 12)) (R (AR 19)) (AR 19));
  (* 673 *) ARM (ASUB true true (R (AR 13)) (R (AR 20)) (AR 20));
  (* 673 *) ARM (ASUB true true (R (AR 14)) (R (AR 21)) (AR 21));
  (* 673 *) ARM (ASUB true false (Imm 0) (R (AR 26)) (AR 26));
  (* 673 *) ARM (AADD false true (R (AR 12)) (R (AR 15)) (AR 15));
  (* 673 *) ARM (AADD true true (R (AR 13)) (R (AR 16)) (AR 16));
  (* 673 *) MOV (M (AR 1) 24) (R (AR 12));
  (* 673 *) MOV (M (AR 1) 32) (R (AR 13));
  (* 673 *) ARM (AMUL (R (AR 6)) (R (AR 12)) (AR 3));
  (* 673 *) ARM (AADD true true (R (AR 14)) (R (AR 17)) (AR 17));
  (* 673 *) ARM (AUMULH (R (AR 6)) (R (AR 12)) (AR 9));
  (* 673 *) MOV (M (AR 1) 40) (R (AR 14));
  (* 673 *) ARM (AMUL (R (AR 6)) (R (AR 13)) (AR 4));
  (* 673 *) ARM (AADD true true (Imm 0) (R (AR 19)) (AR 19));
  (* 673 *) ARM (AUMULH (R (AR 6)) (R (AR 13)) (AR 5));
  (* 673 *) ARM (AADD true true (Imm 0) (R (AR 20)) (AR 20));
  (* 673 *) ARM (AADD true true (Imm 0) (R (AR 21)) (AR 21));
  (* 673 *) ARM (AADD true false (Imm 0) (R (AR 26)) (AR 26));
  (* 673 *) ARM (AMUL (R (AR 7)) (R (AR 12)) (AR 24));
  (* 673 *) ARM (AUMULH (R (AR 7)) (R (AR 12)) (AR 25));
  (* 673 *) ARM (AADD false true (R (AR 9)) (R (AR 4)) (AR 4));
  (* 673 *) ARM (AADD true true (Imm 0) (R (AR 5)) (AR 5));
  (* 673 *) ARM (AADD true false (Imm 0) (Imm 0) (AR 9));
  (* 673 *) ARM (AMUL (R (AR 6)) (R (AR 14)) (AR 22));
  (* 673 *) ARM (AUMULH (R (AR 6)) (R (AR 14)) (AR 23));
  (* 673 *) ARM (AADD false true (R (AR 24)) (R (AR 4)) (AR 4));
  (* 673 *) ARM (AADD true true (R (AR 25)) (R (AR 5)) (AR 5));
  (* 673 *) ARM (AADD true false (Imm 0) (R (AR 9)) (AR 9));
  (* 673 *) ARM (AMUL (R (AR 7)) (R (AR 13)) (AR 24));
  (* 673 *) ARM (AUMULH (R (AR 7)) (R (AR 13)) (AR 25));
  (* 673 *) ARM (AADD false true (R (AR 22)) (R (AR 5)) (AR 5));
  (* 673 *) ARM (AADD true true (R (AR 23)) (R (AR 9)) (AR 9));
  (* 673 *) ARM (AADD true false (Imm 0) (Imm 0) (AR 10));
  (* 673 *) ARM (AMUL (R (AR 8)) (R (AR 12)) (AR 22));
  (* 673 *) ARM (AUMULH (R (AR 8)) (R (AR 12)) (AR 23));
  (* 673 *) ARM (AADD false true (R (AR 24)) (R (AR 5)) (AR 5));
  (* 673 *) ARM (AADD true true (R (AR 25)) (R (AR 9)) (AR 9));
  (* 673 *) ARM (AADD true false (Imm 0) (R (AR 10)) (AR 10));
  (* 673 *) ARM (AMUL (R (AR 7)) (R (AR 14)) (AR 24));
  (* 673 *) ARM (AUMULH (R (AR 7)) (R (AR 14)) (AR 25));
  (* 673 *) ARM (AADD false true (R (AR 22)) (R (AR 5)) (AR 5));
  (* 673 *) ARM (AADD true true (R (AR 23)) (R (AR 9)) (AR 9));
  (* 673 *) ARM (AADD true false (Imm 0) (R (AR 10)) (AR 10));
  (* 673 *) ARM (AMUL (R (AR 8)) (R (AR 13)) (AR 22));
  (* 673 *) ARM (AUMULH (R (AR 8)) (R (AR 13)) (AR 23));
  (* 673 *) ARM (AADD false true (R (AR 24)) (R (AR 9)) (AR 9));
  (* 673 *) ARM (AADD true true (R (AR 25)) (R (AR 10)) (AR 10));
  (* 673 *) ARM (AADD true false (Imm 0) (Imm 0) (AR 11));
  (* 673 *) ARM (AMUL (R (AR 8)) (R (AR 14)) (AR 24));
  (* 673 *) ARM (AUMULH (R (AR 8)) (R (AR 14)) (AR 25));
  (* 673 *) ARM (AADD false true (R (AR 22)) (R (AR 9)) (AR 9));
  (* 673 *) ARM (AADD true true (R (AR 23)) (R (AR 10)) (AR 10));
  (* 673 *) ARM (AADD true false (Imm 0) (R (AR 11)) (AR 11));
  (* 673 *) ARM (AADD false true (R (AR 24)) (R (AR 10)) (AR 10));
  (* 673 *) ARM (AADD true false (R (AR 25)) (R (AR 11)) (AR 11));
  (* 673 *) ARM (ASUB false true (R (AR 3)) (R (AR 15)) (AR 15));
  (* 673 *) ARM (ASUB true true (R (AR 4)) (R (AR 16)) (AR 16));
  (* 673 *) ARM (ASUB true true (R (AR 5)) (R (AR 17)) (AR 17));
  (* 673 *) ARM (ASUB true true (R (AR 9)) (R (AR 19)) (AR 19));
  (* 673 *) ARM (ASUB true true (R (AR 10)) (R (AR 20)) (AR 20));
  (* 673 *) ARM (ASUB true true (R (AR 11)) (R (AR 21)) (AR 21));
  (* 673 *) ARM (ASUB true false (Imm 0) (R (AR 26)) (AR 26));
  (* 673 *) ARM (AADD false true (R (AR 3)) (R (AR 19)) (AR 19));
  (* 673 *) ARM (AADD true true (R (AR 4)) (R (AR 20)) (AR 20));
  (* 673 *) ARM (AADD true true (R (AR 5)) (R (AR 21)) (AR 21));
  (* 673 *) ARM (AADD true true (R (AR 26)) (R (AR 9)) (AR 22));
  (* 673 *) ARM (AADD true true (Imm 0) (R (AR 10)) (AR 23));
  (* 673 *) ARM (AADD true false (Imm 0) (R (AR 11)) (AR 24));
  (* 676 *) MOV (M (AR 2) 0) (R (AR 12));
  (* 676 *) MOV (M (AR 2) 8) (R (AR 13));
  (* 677 *) MOV (M (AR 2) 48) (R (AR 3));
  (* 677 *) MOV (M (AR 2) 56) (R (AR 4));
  (* 678 *) ARM (ASUB false true (R (AR 12)) (R (AR 3)) (AR 3));
  (* 679 *) MOV (M (AR 2) 64) (R (AR 5));
  (* 679 *) MOV (M (AR 2) 72) (R (AR 6));
  (* 680 *) MOV (M (AR 2) 16) (R (AR 14));
  (* 681 *) ARM (ASUB true true (R (AR 13)) (R (AR 4)) (AR 4));
  (* 682 *) ARM (ASUB true true (R (AR 14)) (R (AR 5)) (AR 5));
  (* 683 *) MOV (M (AR 2) 80) (R (AR 7));
  (* 683 *) MOV (M (AR 2) 88) (R (AR 8));
  (* 684 *) ARM (ASUB true true (R (AR 15)) (R (AR 6)) (AR 6));
  (* 685 *) ARM (ASUB true true (R (AR 16)) (R (AR 7)) (AR 7));
  (* 686 *) MOV (M (AR 2) 96) (R (AR 9));
  (* 686 *) MOV (M (AR 2) 104) (R (AR 10));
  (* 687 *) ARM (ASUB true true (R (AR 17)) (R (AR 8)) (AR 8));
  (* 688 *) ARM (ASUB true true (R (AR 19)) (R (AR 9)) (AR 9));
  (* 689 *) MOV (M (AR 2) 112) (R (AR 11));
  (* 689 *) MOV (M (AR 2) 120) (R (AR 12));
  (* 690 *) ARM (ASUB true true (R (AR 20)) (R (AR 10)) (AR 10));
  (* 691 *) ARM (ASUB true true (R (AR 21)) (R (AR 11)) (AR 11));
  (* 692 *) MOV (M (AR 2) 128) (R (AR 13));
  (* 692 *) MOV (M (AR 2) 136) (R (AR 14));
  (* 693 *) ARM (ASUB true true (R (AR 22)) (R (AR 12)) (AR 12));
  (* 694 *) ARM (ASUB true true (R (AR 23)) (R (AR 13)) (AR 13));
  (* 695 *) ARM (ASUB true true (R (AR 24)) (R (AR 14)) (AR 14));
  (* 696 *) ARM (ASUB true false (Imm 0) (R (AR 29)) (AR 29));
  (* 698 *) MOV (R (AR 15)) (M (AR 2) 24);
  (* 698 *) MOV (R (AR 16)) (M (AR 2) 32);
  (* 699 *) MOV (R (AR 17)) (M (AR 2) 40);
  (* 702 *) ARM (AADD false true (R (AR 19)) (R (AR 3)) (AR 3));
  (* 703 *) ARM (AADD true true (R (AR 20)) (R (AR 4)) (AR 4));
  (* 704 *) MOV (R (AR 3)) (M (AR 2) 48);
  (* 704 *) MOV (R (AR 4)) (M (AR 2) 56);
  (* 705 *) ARM (AADD true true (R (AR 21)) (R (AR 5)) (AR 5));
  (* 706 *) ARM (AADD true true (R (AR 22)) (R (AR 6)) (AR 6));
  (* 707 *) MOV (R (AR 5)) (M (AR 2) 64);
  (* 707 *) MOV (R (AR 6)) (M (AR 2) 72);
  (* 708 *) ARM (AADD true true (R (AR 23)) (R (AR 7)) (AR 7));
  (* 709 *) ARM (AADD true true (R (AR 24)) (R (AR 8)) (AR 8));
  (* 710 *) MOV (R (AR 7)) (M (AR 2) 80);
  (* 710 *) MOV (R (AR 8)) (M (AR 2) 88);
  (* 711 *) ARM (AADD true true (Imm 0) (R (AR 9)) (AR 9));
  (* 712 *) ARM (AADD true true (Imm 0) (R (AR 10)) (AR 10));
  (* 713 *) MOV (R (AR 9)) (M (AR 2) 96);
  (* 713 *) MOV (R (AR 10)) (M (AR 2) 104);
  (* 714 *) ARM (AADD true true (Imm 0) (R (AR 11)) (AR 11));
  (* 715 *) ARM (AADD true true (Imm 0) (R (AR 12)) (AR 12));
  (* 716 *) MOV (R (AR 11)) (M (AR 2) 112);
  (* 716 *) MOV (R (AR 12)) (M (AR 2) 120);
  (* 717 *) ARM (AADD true true (Imm 0) (R (AR 13)) (AR 13));
  (* 718 *) ARM (AADD true true (Imm 0) (R (AR 14)) (AR 14));
  (* 719 *) MOV (R (AR 13)) (M (AR 2) 128);
  (* 719 *) MOV (R (AR 14)) (M (AR 2) 136);
  (* 720 *) ARM (AADD true false (Imm 0) (R (AR 29)) (AR 29));
  (* 723 *) MOV (M (AR 0) 48) (R (AR 3));
  (* 723 *) MOV (M (AR 0) 56) (R (AR 4));
  (* 724 *) MOV (M (AR 0) 64) (R (AR 5));
  (* 724 *) MOV (M (AR 0) 72) (R (AR 6));
  (* 725 *) MOV (M (AR 0) 80) (R (AR 7));
  (* 725 *) MOV (M (AR 0) 88) (R (AR 8));
  (* 726 *) MOV (M (AR 1) 48) (R (AR 9));
  (* 726 *) MOV (M (AR 1) 56) (R (AR 10));
  (* 727 *) MOV (M (AR 1) 64) (R (AR 11));
  (* 727 *) MOV (M (AR 1) 72) (R (AR 12));
  (* 728 *) MOV (M (AR 1) 80) (R (AR 13));
  (* 728 *) MOV (M (AR 1) 88) (R (AR 14));
  (* 731 *) ARM (AADD false true (R (AR 3)) (R (AR 6)) (AR 6));
  (* 731 *) ARM (AADD true true (R (AR 4)) (R (AR 7)) (AR 7));
  (* 731 *) ARM (AADD true true (R (AR 5)) (R (AR 8)) (AR 8));
  (* 731 *) ARM (AADD true false (Imm 0) (Imm 0) (AR 26));
  (* 731 *) ARM (AADD false true (R (AR 9)) (R (AR 12)) (AR 12));
  (* 731 *) ARM (AADD true true (R (AR 10)) (R (AR 13)) (AR 13));
  (* 731 *) ARM (AADD true true (R (AR 11)) (R (AR 14)) (AR 14));
  (* 731 *) ARM (AADD true false (Imm 0) (Imm 0) (AR 22));
  (* 731 *) ARM (ASUB false false (R (AR 26)) (Imm 0) (AR 23));
  (* 731 *) ARM (ASUB false false (R (AR 22)) (Imm 0) (AR 24));
  (* 731 *) ARM (AAND (R (AR 22)) (R (AR 26)) (AR 26));
  (* 731 *) ARM (AAND (R (AR 23)) (R (AR 12)) (AR 15));
  (* 731 *) ARM (AAND (R (AR 23)) (R (AR 13)) (AR 16));
  (* 731 *) ARM (AAND (R (AR 23)) (R (AR 14)) (AR 17));
  (* 731 *) ARM (AAND (R (AR 24)) (R (AR 6)) (AR 19));
  (* 731 *) ARM (AAND (R (AR 24)) (R (AR 7)) (AR 20));
  (* 731 *) ARM (AAND (R (AR 24)) (R (AR 8)) (AR 21));
  (* 731 *) ARM (AADD false true (R (AR 19)) (R (AR 15)) (AR 15));
  (* 731 *) ARM (AADD true true (R (AR 20)) (R (AR 16)) (AR 16));
  (* 731 *) MOV (R (AR 15)) (M (AR 2) 144);
  (* 731 *) MOV (R (AR 16)) (M (AR 2) 152);
  (* 731 *) ARM (AMUL (R (AR 6)) (R (AR 12)) (AR 15));
  (* 731 *) ARM (AMUL (R (AR 6)) (R (AR 13)) (AR 16));
  (* 731 *) ARM (AADD true true (R (AR 21)) (R (AR 17)) (AR 17));
  (* 731 *) MOV (R (AR 17)) (M (AR 2) 160);
  (* 731 *) ARM (AUMULH (R (AR 6)) (R (AR 13)) (AR 17));
  (* 731 *) ARM (AUMULH (R (AR 6)) (R (AR 12)) (AR 19));
  (* 731 *) ARM (AADD true false (Imm 0) (R (AR 26)) (AR 26));
  (* 731 *) ARM (AMUL (R (AR 7)) (R (AR 12)) (AR 24));
  (* 731 *) ARM (AUMULH (R (AR 7)) (R (AR 12)) (AR 25));
  (* 731 *) ARM (AADD false true (R (AR 19)) (R (AR 16)) (AR 16));
  (* 731 *) ARM (AADD true true (Imm 0) (R (AR 17)) (AR 17));
  (* 731 *) ARM (AADD true false (Imm 0) (Imm 0) (AR 19));
  (* 731 *) ARM (AMUL (R (AR 6)) (R (AR 14)) (AR 22));
  (* 731 *) ARM (AUMULH (R (AR 6)) (R (AR 14)) (AR 23));
  (* 731 *) ARM (AADD false true (R (AR 24)) (R (AR 16)) (AR 16));
  (* 731 *) ARM (AADD true true (R (AR 25)) (R (AR 17)) (AR 17));
  (* 731 *) ARM (AADD true false (Imm 0) (R (AR 19)) (AR 19));
  (* 731 *) ARM (AMUL (R (AR 7)) (R (AR 13)) (AR 24));
  (* 731 *) ARM (AUMULH (R (AR 7)) (R (AR 13)) (AR 25));
  (* 731 *) ARM (AADD false true (R (AR 22)) (R (AR 17)) (AR 17));
  (* 731 *) ARM (AADD true true (R (AR 23)) (R (AR 19)) (AR 19));
  (* 731 *) ARM (AADD true false (Imm 0) (Imm 0) (AR 20));
  (* 731 *) ARM (AMUL (R (AR 8)) (R (AR 12)) (AR 22));
  (* 731 *) ARM (AUMULH (R (AR 8)) (R (AR 12)) (AR 23));
  (* 731 *) ARM (AADD false true (R (AR 24)) (R (AR 17)) (AR 17));
  (* 731 *) ARM (AADD true true (R (AR 25)) (R (AR 19)) (AR 19));
  (* 731 *) ARM (AADD true false (Imm 0) (R (AR 20)) (AR 20));
  (* 731 *) ARM (AMUL (R (AR 7)) (R (AR 14)) (AR 24));
  (* 731 *) ARM (AUMULH (R (AR 7)) (R (AR 14)) (AR 25));
  (* 731 *) ARM (AADD false true (R (AR 22)) (R (AR 17)) (AR 17));
  (* 731 *) ARM (AADD true true (R (AR 23)) (R (AR 19)) (AR 19));
  (* 731 *) ARM (AADD true false (Imm 0) (R (AR 20)) (AR 20));
  (* 731 *) ARM (AMUL (R (AR 8)) (R (AR 13)) (AR 22));
  (* 731 *) ARM (AUMULH (R (AR 8)) (R (AR 13)) (AR 23));
  (* 731 *) ARM (AADD false true (R (AR 24)) (R (AR 19)) (AR 19));
  (* 731 *) ARM (AADD true true (R (AR 25)) (R (AR 20)) (AR 20));
  (* 731 *) ARM (AADD true false (Imm 0) (Imm 0) (AR 21));
  (* 731 *) ARM (AMUL (R (AR 8)) (R (AR 14)) (AR 24));
  (* 731 *) ARM (AUMULH (R (AR 8)) (R (AR 14)) (AR 25));
  (* 731 *) ARM (AADD false true (R (AR 22)) (R (AR 19)) (AR 19));
  (* 731 *) ARM (AADD true true (R (AR 23)) (R (AR 20)) (AR 20));
  (* 731 *) ARM (AADD true false (Imm 0) (R (AR 21)) (AR 21));
  (* 731 *) ARM (AADD false true (R (AR 24)) (R (AR 20)) (AR 20));
  (* 731 *) ARM (AADD true false (R (AR 25)) (R (AR 21)) (AR 21));
  (* 731 *) ARM (AMUL (R (AR 3)) (R (AR 9)) (AR 6));
  (* 731 *) MOV (M (AR 2) 144) (R (AR 22));
  (* 731 *) MOV (M (AR 2) 152) (R (AR 23));
  (* 731 *) MOV (M (AR 2) 160) (R (AR 24));
  (* 731 *) ARM (AUMULH (R (AR 3)) (R (AR 9)) (AR 12));
  (* 731 *) ARM (AADD false true (R (AR 22)) (R (AR 19)) (AR 19));
  (* 731 *) ARM (AADD true true (R (AR 23)) (R (AR 20)) (AR 20));
  (* 731 *) ARM (AMUL (R (AR 3)) (R (AR 10)) (AR 7));
  (* 731 *) ARM (AADD true true (R (AR 24)) (R (AR 21)) (AR 21));
  (* 731 *) ARM (AADD true false (Imm 0) (R (AR 26)) (AR 26));
  (* 731 *) ARM (AUMULH (R (AR 3)) (R (AR 10)) (AR 8));
  (* 731 *) ARM (AMUL (R (AR 4)) (R (AR 9)) (AR 24));
  (* 731 *) ARM (AUMULH (R (AR 4)) (R (AR 9)) (AR 25));
  (* 731 *) ARM (AADD false true (R (AR 12)) (R (AR 7)) (AR 7));
  (* 731 *) ARM (AADD true true (Imm 0) (R (AR 8)) (AR 8));
  (* 731 *) ARM (AADD true false (Imm 0) (Imm 0) (AR 12));
  (* 731 *) ARM (AMUL (R (AR 3)) (R (AR 11)) (AR 22));
  (* 731 *) ARM (AUMULH (R (AR 3)) (R (AR 11)) (AR 23));
  (* 731 *) ARM (AADD false true (R (AR 24)) (R (AR 7)) (AR 7));
  (* 731 *) ARM (AADD true true (R (AR 25)) (R (AR 8)) (AR 8));
  (* 731 *) ARM (AADD true false (Imm 0) (R (AR 12)) (AR 12));
  (* 731 *) ARM (AMUL (R (AR 4)) (R (AR 10)) (AR 24));
  (* 731 *) ARM (AUMULH (R (AR 4)) (R (AR 10)) (AR 25));
  (* 731 *) ARM (AADD false true (R (AR 22)) (R (AR 8)) (AR 8));
  (* 731 *) ARM (AADD true true (R (AR 23)) (R (AR 12)) (AR 12));
  (* 731 *) ARM (AADD true false (Imm 0) (Imm 0) (AR 13));
  (* 731 *) ARM (AMUL (R (AR 5)) (R (AR 9)) (AR 22));
  (* 731 *) ARM (AUMULH (R (AR 5)) (R (AR 9)) (AR 23));
  (* 731 *) ARM (AADD false true (R (AR 24)) (R (AR 8)) (AR 8));
  (* 731 *) ARM (AADD true true (R (AR 25)) (R (AR 12)) (AR 12));
  (* 731 *) ARM (AADD true false (Imm 0) (R (AR 13)) (AR 13));
  (* 731 *) ARM (AMUL (R (AR 4)) (R (AR 11)) (AR 24));
  (* 731 *) ARM (AUMULH (R (AR 4)) (R (AR 11)) (AR 25));
  (* 731 *) ARM (AADD false true (R (AR 22)) (R (AR 8)) (AR 8));
  (* 731 *) ARM (AADD true true (R (AR 23)) (R (AR 12)) (AR 12));
  (* 731 *) ARM (AADD true false (Imm 0) (R (AR 13)) (AR 13));
  (* 731 *) ARM (AMUL (R (AR 5)) (R (AR 10)) (AR 22));
  (* 731 *) ARM (AUMULH (R (AR 5)) (R (AR 10)) (AR 23));
  (* 731 *) ARM (AADD false true (R (AR 24)) (R (AR 12)) (AR 12));
  (* 731 *) ARM (AADD true true (R (AR 25)) (R (AR 13)) (AR 13));
  (* 731 *) ARM (AADD true false (Imm 0) (Imm 0) (AR 14));
  (* 731 *) ARM (AMUL (R (AR 5)) (R (AR 11)) (AR 24));
  (* 731 *) ARM (AUMULH (R (AR 5)) (R (AR 11)) (AR 25));
  (* 731 *) ARM (AADD false true (R (AR 22)) (R (AR 12)) (AR 12));
  (* 731 *) ARM (AADD true true (R (AR 23)) (R (AR 13)) (AR 13));
  (* 731 *) ARM (AADD true false (Imm 0) (R (AR 14)) (AR 14));
  (* 731 *) ARM (AADD false true (R (AR 24)) (R (AR 13)) (AR 13));
  (* 731 *) ARM (AADD true false (R (AR 25)) (R (AR 14)) (AR 14));
  (* 731 *) MOV (R (AR 6)) (M (AR 2) 144);
  (* 731 *) MOV (R (AR 7)) (M (AR 2) 152);
  (* 731 *) MOV (R (AR 8)) (M (AR 2) 160);
  (* 731 *) ARM (ASUB false true (R (AR 6)) (R (AR 15)) (AR 15));
  (* 731 *) ARM (ASUB true true (R (AR 7)) (R (AR 16)) (AR 16));
  (* 731 *) MOV (M (AR 0) 72) (R (AR 6));
  (* 731 *) MOV (M (AR 0) 80) (R (AR 7));
  (* 731 *) ARM (ASUB true true (R (AR 8)) (R (AR 17)) (AR 17));
  (* 731 *) MOV (M (AR 0) 88) (R (AR 8));
  (* 731 *) ARM (ASUB true true (R (AR 12)) (R (AR 19)) (AR 19));
  (* 731 *) ARM (ASUB true true (R (AR 13)) (R (AR 20)) (AR 20));
  (* 731 *) ARM (ASUB true true (R (AR 14)) (R (AR 21)) (AR 21));
  (* 731 *) ARM (ASUB true false (Imm 0) (R (AR 26)) (AR 26));
  (* 731 *) ARM (AADD false true (R (AR 12)) (R (AR 15)) (AR 15));
  (* 731 *) ARM (AADD true true (R (AR 13)) (R (AR 16)) (AR 16));
  (* 731 *) MOV (M (AR 1) 72) (R (AR 12));
  (* 731 *) MOV (M (AR 1) 80) (R (AR 13));
  (* 731 *) ARM (AMUL (R (AR 6)) (R (AR 12)) (AR 3));
  (* 731 *) ARM (AADD true true (R (AR 14)) (R (AR 17)) (AR 17));
  (* 731 *) ARM (AUMULH (R (AR 6)) (R (AR 12)) (AR 9));
  (* 731 *) MOV (M (AR 1) 88) (R (AR 14));
  (* 731 *) ARM (AMUL (R (AR 6)) (R (AR 13)) (AR 4));
  (* 731 *) ARM (AADD true true (Imm 0) (R (AR 19)) (AR 19));
  (* 731 *) ARM (AUMULH (R (AR 6)) (R (AR 13)) (AR 5));
  (* 731 *) ARM (AADD true true (Imm 0) (R (AR 20)) (AR 20));
  (* 731 *) ARM (AADD true true (Imm 0) (R (AR 21)) (AR 21));
  (* 731 *) ARM (AADD true false (Imm 0) (R (AR 26)) (AR 26));
  (* 731 *) ARM (AMUL (R (AR 7)) (R (AR 12)) (AR 24));
  (* 731 *) ARM (AUMULH (R (AR 7)) (R (AR 12)) (AR 25));
  (* 731 *) ARM (AADD false true (R (AR 9)) (R (AR 4)) (AR 4));
  (* 731 *) ARM (AADD true true (Imm 0) (R (AR 5)) (AR 5));
  (* 731 *) ARM (AADD true false (Imm 0) (Imm 0) (AR 9));
  (* 731 *) ARM (AMUL (R (AR 6)) (R (AR 14)) (AR 22));
  (* 731 *) ARM (AUMULH (R (AR 6)) (R (AR 14)) (AR 23));
  (* 731 *) ARM (AADD false true (R (AR 24)) (R (AR 4)) (AR 4));
  (* 731 *) ARM (AADD true true (R (AR 25)) (R (AR 5)) (AR 5));
  (* 731 *) ARM (AADD true false (Imm 0) (R (AR 9)) (AR 9));
  (* 731 *) ARM (AMUL (R (AR 7)) (R (AR 13)) (AR 24));
  (* 731 *) ARM (AUMULH (R (AR 7)) (R (AR 13)) (AR 25));
  (* 731 *) ARM (AADD false true (R (AR 22)) (R (AR 5)) (AR 5));
  (* 731 *) ARM (AADD true true (R (AR 23)) (R (AR 9)) (AR 9));
  (* 731 *) ARM (AADD true false (Imm 0) (Imm 0) (AR 10));
  (* 731 *) ARM (AMUL (R (AR 8)) (R (AR 12)) (AR 22));
  (* 731 *) ARM (AUMULH (R (AR 8)) (R (AR 12)) (AR 23));
  (* 731 *) ARM (AADD false true (R (AR 24)) (R (AR 5)) (AR 5));
  (* 731 *) ARM (AADD true true (R (AR 25)) (R (AR 9)) (AR 9));
  (* 731 *) ARM (AADD true false (Imm 0) (R (AR 10)) (AR 10));
  (* 731 *) ARM (AMUL (R (AR 7)) (R (AR 14)) (AR 24));
  (* 731 *) ARM (AUMULH (R (AR 7)) (R (AR 14)) (AR 25));
  (* 731 *) ARM (AADD false true (R (AR 22)) (R (AR 5)) (AR 5));
  (* 731 *) ARM (AADD true true (R (AR 23)) (R (AR 9)) (AR 9));
  (* 731 *) ARM (AADD true false (Imm 0) (R (AR 10)) (AR 10));
  (* 731 *) ARM (AMUL (R (AR 8)) (R (AR 13)) (AR 22));
  (* 731 *) ARM (AUMULH (R (AR 8)) (R (AR 13)) (AR 23));
  (* 731 *) ARM (AADD false true (R (AR 24)) (R (AR 9)) (AR 9));
  (* 731 *) ARM (AADD true true (R (AR 25)) (R (AR 10)) (AR 10));
  (* 731 *) ARM (AADD true false (Imm 0) (Imm 0) (AR 11));
  (* 731 *) ARM (AMUL (R (AR 8)) (R (AR 14)) (AR 24));
  (* 731 *) ARM (AUMULH (R (AR 8)) (R (AR 14)) (AR 25));
  (* 731 *) ARM (AADD false true (R (AR 22)) (R (AR 9)) (AR 9));
  (* 731 *) ARM (AADD true true (R (AR 23)) (R (AR 10)) (AR 10));
  (* 731 *) ARM (AADD true false (Imm 0) (R (AR 11)) (AR 11));
  (* 731 *) ARM (AADD false true (R (AR 24)) (R (AR 10)) (AR 10));
  (* 731 *) ARM (AADD true false (R (AR 25)) (R (AR 11)) (AR 11));
  (* 731 *) ARM (ASUB false true (R (AR 3)) (R (AR 15)) (AR 15));
  (* 731 *) ARM (ASUB true true (R (AR 4)) (R (AR 16)) (AR 16));
  (* 731 *) ARM (ASUB true true (R (AR 5)) (R (AR 17)) (AR 17));
  (* 731 *) ARM (ASUB true true (R (AR 9)) (R (AR 19)) (AR 19));
  (* 731 *) ARM (ASUB true true (R (AR 10)) (R (AR 20)) (AR 20));
  (* 731 *) ARM (ASUB true true (R (AR 11)) (R (AR 21)) (AR 21));
  (* 731 *) ARM (ASUB true false (Imm 0) (R (AR 26)) (AR 26));
  (* 731 *) ARM (AADD false true (R (AR 3)) (R (AR 19)) (AR 19));
  (* 731 *) ARM (AADD true true (R (AR 4)) (R (AR 20)) (AR 20));
  (* 731 *) ARM (AADD true true (R (AR 5)) (R (AR 21)) (AR 21));
  (* 731 *) ARM (AADD true true (R (AR 26)) (R (AR 9)) (AR 22));
  (* 731 *) ARM (AADD true true (Imm 0) (R (AR 10)) (AR 23));
  (* 731 *) ARM (AADD true false (Imm 0) (R (AR 11)) (AR 24));
  (* 733 *) MOV (M (AR 2) 144) (R (AR 12));
  (* 733 *) MOV (M (AR 2) 152) (R (AR 13));
  (* 734 *) MOV (M (AR 2) 160) (R (AR 14));
  (* 738 *) MOV (M (AR 2) 48) (R (AR 3));
  (* 738 *) MOV (M (AR 2) 56) (R (AR 4));
  (* 739 *) ARM (ASUB false true (R (AR 12)) (R (AR 3)) (AR 3));
  (* 740 *) MOV (M (AR 2) 64) (R (AR 5));
  (* 740 *) MOV (M (AR 2) 72) (R (AR 6));
  (* 741 *) ARM (ASUB true true (R (AR 13)) (R (AR 4)) (AR 4));
  (* 742 *) ARM (ASUB true true (R (AR 14)) (R (AR 5)) (AR 5));
  (* 743 *) MOV (M (AR 2) 80) (R (AR 7));
  (* 743 *) MOV (M (AR 2) 88) (R (AR 8));
  (* 744 *) ARM (ASUB true true (R (AR 15)) (R (AR 6)) (AR 6));
  (* 745 *) ARM (ASUB true true (R (AR 16)) (R (AR 7)) (AR 7));
  (* 746 *) MOV (M (AR 2) 96) (R (AR 9));
  (* 746 *) MOV (M (AR 2) 104) (R (AR 10));
  (* 747 *) ARM (ASUB true true (R (AR 17)) (R (AR 8)) (AR 8));
  (* 748 *) ARM (ASUB true true (R (AR 19)) (R (AR 9)) (AR 9));
  (* 749 *) MOV (M (AR 2) 112) (R (AR 11));
  (* 749 *) MOV (M (AR 2) 120) (R (AR 12));
  (* 750 *) ARM (ASUB true true (R (AR 20)) (R (AR 10)) (AR 10));
  (* 751 *) ARM (ASUB true true (R (AR 21)) (R (AR 11)) (AR 11));
  (* 752 *) MOV (M (AR 2) 128) (R (AR 13));
  (* 752 *) MOV (M (AR 2) 136) (R (AR 14));
  (* 753 *) ARM (ASUB true true (R (AR 22)) (R (AR 12)) (AR 12));
  (* 754 *) ARM (ASUB true true (R (AR 23)) (R (AR 13)) (AR 13));
  (* 755 *) MOV (R (AR 3)) (M (AR 2) 48);
  (* 755 *) MOV (R (AR 4)) (M (AR 2) 56);
  (* 756 *) ARM (ASUB true true (R (AR 24)) (R (AR 14)) (AR 14));
  (* 757 *) MOV (R (AR 5)) (M (AR 2) 64);
  (* 757 *) MOV (R (AR 6)) (M (AR 2) 72);
  (* 758 *) ARM (ASUB true false (Imm 0) (R (AR 29)) (AR 29));
  (* 759 *) MOV (R (AR 7)) (M (AR 2) 80);
  (* 759 *) MOV (R (AR 8)) (M (AR 2) 88);
  (* 763 *) MOV (M (AR 2) 144) (R (AR 3));
  (* 763 *) MOV (M (AR 2) 152) (R (AR 4));
  (* 764 *) MOV (M (AR 2) 160) (R (AR 5));
  (* 766 *) ARM (AADD false true (R (AR 3)) (R (AR 9)) (AR 9));
  (* 767 *) ARM (AADD true true (R (AR 4)) (R (AR 10)) (AR 10));
  (* 768 *) MOV (R (AR 9)) (M (AR 2) 96);
  (* 768 *) MOV (R (AR 10)) (M (AR 2) 104);
  (* 769 *) ARM (AADD true true (R (AR 5)) (R (AR 11)) (AR 11));
  (* 770 *) ARM (AADD true true (R (AR 15)) (R (AR 12)) (AR 12));
  (* 771 *) MOV (R (AR 11)) (M (AR 2) 112);
  (* 771 *) MOV (R (AR 12)) (M (AR 2) 120);
  (* 772 *) ARM (AADD true true (R (AR 16)) (R (AR 13)) (AR 13));
  (* 773 *) ARM (AADD true true (R (AR 17)) (R (AR 14)) (AR 14));
  (* 774 *) MOV (R (AR 13)) (M (AR 2) 128);
  (* 774 *) MOV (R (AR 14)) (M (AR 2) 136);
  (* 776 *) ARM (AADD true true (R (AR 29)) (R (AR 19)) (AR 19));
  (* 777 *) ARM (AADD true true (Imm 0) (R (AR 20)) (AR 20));
  (* 778 *) MOV (R (AR 19)) (M (AR 2) 144);
  (* 778 *) MOV (R (AR 20)) (M (AR 2) 152);
  (* 779 *) ARM (AADD true true (Imm 0) (R (AR 21)) (AR 21));
  (* 780 *) ARM (AADD true true (Imm 0) (R (AR 22)) (AR 22));
  (* 781 *) MOV (R (AR 21)) (M (AR 2) 160);
  (* 781 *) MOV (R (AR 22)) (M (AR 2) 168);
  (* 782 *) ARM (AADD true true (Imm 0) (R (AR 23)) (AR 23));
  (* 783 *) ARM (AADD true false (Imm 0) (R (AR 24)) (AR 24));
  (* 784 *) MOV (R (AR 23)) (M (AR 2) 176);
  (* 784 *) MOV (R (AR 24)) (M (AR 2) 184)].
(* rdcP751, arith_arm64.s from line 788, frame of 0 bytes *)
Definition rdcP751Arm : list instr := [
  (* 789 *) MOV (A 0) (R (AR 0));
  (* 790 *) MOV (A 8) (R (AR 1));
  (* 793 *) MOV (G 2 40) (R (AR 14));
  (* 793 *) MOV (G 2 48) (R (AR 15));
  (* 796 *) MOV (M (AR 1) 0) (R (AR 2));
  (* 796 *) MOV (M (AR 1) 8) (R (AR 3));
  (* 799 *) ARM (AMUL (R (AR 2)) (R (AR 14)) (AR 22));
  (* 800 *) MOV (M (AR 1) 32) (R (AR 6));
  (* 800 *) MOV (M (AR 1) 40) (R (AR 21));
  (* 801 *) ARM (AUMULH (R (AR 2)) (R (AR 14)) (AR 23));
  (* 802 *) ARM (AADD false true (R (AR 21)) (R (AR 22)) (AR 7));
  (* 803 *) ARM (AADD true false (Imm 0) (R (AR 23)) (AR 25));
  (* 806 *) ARM (AMUL (R (AR 2)) (R (AR 15)) (AR 22));
  (* 807 *) MOV (M (AR 1) 48) (R (AR 21));
  (* 808 *) ARM (AUMULH (R (AR 2)) (R (AR 15)) (AR 23));
  (* 809 *) ARM (AADD false true (R (AR 22)) (R (AR 25)) (AR 25));
  (* 810 *) ARM (AADD true false (R (AR 23)) (Imm 0) (AR 26));
  (* 812 *) ARM (AMUL (R (AR 3)) (R (AR 14)) (AR 22));
  (* 813 *) MOV (G 2 56) (R (AR 16));
  (* 813 *) MOV (G 2 64) (R (AR 17));
  (* 814 *) ARM (AUMULH (R (AR 3)) (R (AR 14)) (AR 23));
  (* 815 *) ARM (AADD false true (R (AR 22)) (R (AR 25)) (AR 25));
  (* 816 *) ARM (AADD true true (R (AR 23)) (R (AR 26)) (AR 26));
  (* 817 *) ARM (AADD true false (Imm 0) (Imm 0) (AR 24));
  (* 819 *) ARM (AADD false true (R (AR 21)) (R (AR 25)) (AR 8));
  (* 820 *) ARM (AADD true true (Imm 0) (R (AR 26)) (AR 26));
  (* 821 *) ARM (AADD true false (Imm 0) (R (AR 24)) (AR 24));
  (* 824 *) ARM (AMUL (R (AR 2)) (R (AR 16)) (AR 22));
  (* 825 *) MOV (M (AR 1) 56) (R (AR 21));
  (* 826 *) ARM (AUMULH (R (AR 2)) (R (AR 16)) (AR 23));
  (* 827 *) ARM (AADD false true (R (AR 22)) (R (AR 26)) (AR 26));
  (* 828 *) ARM (AADD true true (R (AR 23)) (R (AR 24)) (AR 24));
  (* 829 *) ARM (AADD true false (Imm 0) (Imm 0) (AR 25));
  (* 831 *) ARM (AMUL (R (AR 3)) (R (AR 15)) (AR 22));
  (* 832 *) MOV (M (AR 1) 16) (R (AR 4));
  (* 832 *) MOV (M (AR 1) 24) (R (AR 5));
  (* 833 *) ARM (AUMULH (R (AR 3)) (R (AR 15)) (AR 23));
  (* 834 *) ARM (AADD false true (R (AR 22)) (R (AR 26)) (AR 26));
  (* 835 *) ARM (AADD true true (R (AR 23)) (R (AR 24)) (AR 24));
  (* 836 *) ARM (AADD true false (Imm 0) (R (AR 25)) (AR 25));
  (* 838 *) ARM (AMUL (R (AR 4)) (R (AR 14)) (AR 22));
  (* 839 *) MOV (G 2 72) (R (AR 29));
  (* 839 *) MOV (G 2 80) (R (AR 19));
  (* 840 *) ARM (AUMULH (R (AR 4)) (R (AR 14)) (AR 23));
  (* 841 *) ARM (AADD false true (R (AR 22)) (R (AR 26)) (AR 26));
  (* 842 *) ARM (AADD true true (R (AR 23)) (R (AR 24)) (AR 24));
  (* 843 *) ARM (AADD true false (Imm 0) (R (AR 25)) (AR 25));
  (* 845 *) ARM (AADD false true (R (AR 21)) (R (AR 26)) (AR 9));
  (* 846 *) ARM (AADD true true (Imm 0) (R (AR 24)) (AR 24));
  (* 847 *) ARM (AADD true false (Imm 0) (R (AR 25)) (AR 25));
  (* 850 *) ARM (AMUL (R (AR 2)) (R (AR 17)) (AR 22));
  (* 851 *) MOV (M (AR 1) 64) (R (AR 21));
  (* 852 *) ARM (AUMULH (R (AR 2)) (R (AR 17)) (AR 23));
  (* 853 *) ARM (AADD false true (R (AR 22)) (R (AR 24)) (AR 24));
  (* 854 *) ARM (AADD true true (R (AR 23)) (R (AR 25)) (AR 25));
  (* 855 *) ARM (AADD true false (Imm 0) (Imm 0) (AR 26));
  (* 857 *) ARM (AMUL (R (AR 3)) (R (AR 16)) (AR 22));
  (* 858 *) MOV (G 2 88) (R (AR 20));
  (* 859 *) ARM (AUMULH (R (AR 3)) (R (AR 16)) (AR 23));
  (* 860 *) ARM (AADD false true (R (AR 22)) (R (AR 24)) (AR 24));
  (* 861 *) ARM (AADD true true (R (AR 23)) (R (AR 25)) (AR 25));
  (* 862 *) ARM (AADD true false (Imm 0) (R (AR 26)) (AR 26));
  (* 864 *) ARM (AMUL (R (AR 4)) (R (AR 15)) (AR 22));
  (* 865 *) ARM (AUMULH (R (AR 4)) (R (AR 15)) (AR 23));
  (* 866 *) ARM (AADD false true (R (AR 22)) (R (AR 24)) (AR 24));
  (* 867 *) ARM (AADD true true (R (AR 23)) (R (AR 25)) (AR 25));
  (* 868 *) ARM (AADD true false (Imm 0) (R (AR 26)) (AR 26));
  (* 870 *) ARM (AMUL (R (AR 5)) (R (AR 14)) (AR 22));
  (* 871 *) ARM (AUMULH (R (AR 5)) (R (AR 14)) (AR 23));
  (* 872 *) ARM (AADD false true (R (AR 22)) (R (AR 24)) (AR 24));
  (* 873 *) ARM (AADD true true (R (AR 23)) (R (AR 25)) (AR 25));
  (* 874 *) ARM (AADD true false (Imm 0) (R (AR 26)) (AR 26));
  (* 876 *) ARM (AADD false true (R (AR 24)) (R (AR 21)) (AR 10));
  (* 877 *) ARM (AADD true true (Imm 0) (R (AR 25)) (AR 25));
  (* 878 *) ARM (AADD true false (Imm 0) (R (AR 26)) (AR 26));
  (* 881 *) ARM (AMUL (R (AR 2)) (R (AR 29)) (AR 22));
  (* 882 *) MOV (M (AR 1) 72) (R (AR 21));
  (* 883 *) ARM (AUMULH (R (AR 2)) (R (AR 29)) (AR 23));
  (* 884 *) ARM (AADD false true (R (AR 22)) (R (AR 25)) (AR 25));
  (* 885 *) ARM (AADD true true (R (AR 23)) (R (AR 26)) (AR 26));
  (* 886 *) ARM (AADD true false (Imm 0) (Imm 0) (AR 24));
  (* 888 *) ARM (AMUL (R (AR 3)) (R (AR 17)) (AR 22));
  (* 889 *) ARM (AUMULH (R (AR 3)) (R (AR 17)) (AR 23));
  (* 890 *) ARM (AADD false true (R (AR 22)) (R (AR 25)) (AR 25));
  (* 891 *) ARM (AADD true true (R (AR 23)) (R (AR 26)) (AR 26));
  (* 892 *) ARM (AADD true false (Imm 0) (R (AR 24)) (AR 24));
  (* 894 *) ARM (AMUL (R (AR 4)) (R (AR 16)) (AR 22));
  (* 895 *) ARM (AUMULH (R (AR 4)) (R (AR 16)) (AR 23));
  (* 896 *) ARM (AADD false true (R (AR 22)) (R (AR 25)) (AR 25));
  (* 897 *) ARM (AADD true true (R (AR 23)) (R (AR 26)) (AR 26));
  (* 898 *) ARM (AADD true false (Imm 0) (R (AR 24)) (AR 24));
  (* 900 *) ARM (AMUL (R (AR 5)) (R (AR 15)) (AR 22));
  (* 901 *) ARM (AUMULH (R (AR 5)) (R (AR 15)) (AR 23));
  (* 902 *) ARM (AADD false true (R (AR 22)) (R (AR 25)) (AR 25));
  (* 903 *) ARM (AADD true true (R (AR 23)) (R (AR 26)) (AR 26));
  (* 904 *) ARM (AADD true false (Imm 0) (R (AR 24)) (AR 24));
  (* 906 *) ARM (AMUL (R (AR 6)) (R (AR 14)) (AR 22));
  (* 907 *) ARM (AUMULH (R (AR 6)) (R (AR 14)) (AR 23));
  (* 908 *) ARM (AADD false true (R (AR 22)) (R (AR 25)) (AR 25));
  (* 909 *) ARM (AADD true true (R (AR 23)) (R (AR 26)) (AR 26));
  (* 910 *) ARM (AADD true false (Imm 0) (R (AR 24)) (AR 24));
  (* 912 *) ARM (AADD false true (R (AR 21)) (R (AR 25)) (AR 11));
  (* 913 *) ARM (AADD true true (Imm 0) (R (AR 26)) (AR 26));
  (* 914 *) ARM (AADD true false (Imm 0) (R (AR 24)) (AR 24));
  (* 917 *) ARM (AMUL (R (AR 2)) (R (AR 19)) (AR 22));
  (* 918 *) MOV (M (AR 1) 80) (R (AR 21));
  (* 919 *) ARM (AUMULH (R (AR 2)) (R (AR 19)) (AR 23));
  (* 920 *) ARM (AADD false true (R (AR 22)) (R (AR 26)) (AR 26));
  (* 921 *) ARM (AADD true true (R (AR 23)) (R (AR 24)) (AR 24));
  (* 922 *) ARM (AADD true false (Imm 0) (Imm 0) (AR 25));
  (* 924 *) ARM (AMUL (R (AR 3)) (R (AR 29)) (AR 22));
  (* 925 *) ARM (AUMULH (R (AR 3)) (R (AR 29)) (AR 23));
  (* 926 *) ARM (AADD false true (R (AR 22)) (R (AR 26)) (AR 26));
  (* 927 *) ARM (AADD true true (R (AR 23)) (R (AR 24)) (AR 24));
  (* 928 *) ARM (AADD true false (Imm 0) (R (AR 25)) (AR 25));
  (* 930 *) ARM (AMUL (R (AR 4)) (R (AR 17)) (AR 22));
  (* 931 *) ARM (AUMULH (R (AR 4)) (R (AR 17)) (AR 23));
  (* 932 *) ARM (AADD false true (R (AR 22)) (R (AR 26)) (AR 26));
  (* 933 *) ARM (AADD true true (R (AR 23)) (R (AR 24)) (AR 24));
  (* 934 *) ARM (AADD true false (Imm 0) (R (AR 25)) (AR 25));
  (* 936 *) ARM (AMUL (R (AR 5)) (R (AR 16)) (AR 22));
  (* 937 *) ARM (AUMULH (R (AR 5)) (R (AR 16)) (AR 23));
  (* 938 *) ARM (AADD false true (R (AR 22)) (R (AR 26)) (AR 26));
  (* 939 *) ARM (AADD true true (R (AR 23)) (R (AR 24)) (AR 24));
  (* 940 *) ARM (AADD true false (Imm 0) (R (AR 25)) (AR 25));
  (* 942 *) ARM (AMUL (R (AR 6)) (R (AR 15)) (AR 22));
  (* 943 *) ARM (AUMULH (R (AR 6)) (R (AR 15)) (AR 23));
  (* 944 *) ARM (AADD false true (R (AR 22)) (R (AR 26)) (AR 26));
  (* 945 *) ARM (AADD true true (R (AR 23)) (R (AR 24)) (AR 24));
  (* 946 *) ARM (AADD true false (Imm 0) (R (AR 25)) (AR 25));
  (* 948 *) ARM (AMUL (R (AR 7)) (R (AR 14)) (AR 22));
  (* 949 *) ARM (AUMULH (R (AR 7)) (R (AR 14)) (AR 23));
  (* 950 *) ARM (AADD false true (R (AR 22)) (R (AR 26)) (AR 26));
  (* 951 *) ARM (AADD true true (R (AR 23)) (R (AR 24)) (AR 24));
  (* 952 *) ARM (AADD true false (Imm 0) (R (AR 25)) (AR 25));
  (* 954 *) ARM (AADD false true (R (AR 21)) (R (AR 26)) (AR 12));
  (* 955 *) ARM (AADD true true (Imm 0) (R (AR 24)) (AR 24));
  (* 956 *) ARM (AADD true false (Imm 0) (R (AR 25)) (AR 25));
  (* 959 *) ARM (AMUL (R (AR 2)) (R (AR 20)) (AR 22));
  (* 960 *) MOV (M (AR 1) 88) (R (AR 21));
  (* 961 *) ARM (AUMULH (R (AR 2)) (R (AR 20)) (AR 23));
  (* 962 *) ARM (AADD false true (R (AR 22)) (R (AR 24)) (AR 24));
  (* 963 *) ARM (AADD true true (R (AR 23)) (R (AR 25)) (AR 25));
  (* 964 *) ARM (AADD true false (Imm 0) (Imm 0) (AR 26));
  (* 966 *) ARM (AMUL (R (AR 3)) (R (AR 19)) (AR 22));
  (* 967 *) ARM (AUMULH (R (AR 3)) (R (AR 19)) (AR 23));
  (* 968 *) ARM (AADD false true (R (AR 22)) (R (AR 24)) (AR 24));
  (* 969 *) ARM (AADD true true (R (AR 23)) (R (AR 25)) (AR 25));
  (* 970 *) ARM (AADD true false (Imm 0) (R (AR 26)) (AR 26));
  (* 972 *) ARM (AMUL (R (AR 4)) (R (AR 29)) (AR 22));
  (* 973 *) ARM (AUMULH (R (AR 4)) (R (AR 29)) (AR 23));
  (* 974 *) ARM (AADD false true (R (AR 22)) (R (AR 24)) (AR 24));
  (* 975 *) ARM (AADD true true (R (AR 23)) (R (AR 25)) (AR 25));
  (* 976 *) ARM (AADD true false (Imm 0) (R (AR 26)) (AR 26));
  (* 978 *) ARM (AMUL (R (AR 5)) (R (AR 17)) (AR 22));
  (* 979 *) ARM (AUMULH (R (AR 5)) (R (AR 17)) (AR 23));
  (* 980 *) ARM (AADD false true (R (AR 22)) (R (AR 24)) (AR 24));
  (* 981 *) ARM (AADD true true (R (AR 23)) (R (AR 25)) (AR 25));
  (* 982 *) ARM (AADD true false (Imm 0) (R (AR 26)) (AR 26));
  (* 984 *) ARM (AMUL (R (AR 6)) (R (AR 16)) (AR 22));
  (* 985 *) ARM (AUMULH (R (AR 6)) (R (AR 16)) (AR 23));
  (* 986 *) ARM (AADD false true (R (AR 22)) (R (AR 24)) (AR 24));
  (* 987 *) ARM (AADD true true (R (AR 23)) (R (AR 25)) (AR 25));
  (* 988 *) ARM (AADD true false (Imm 0) (R (AR 26)) (AR 26));
  (* 990 *) ARM (AMUL (R (AR 7)) (R (AR 15)) (AR 22));
  (* 991 *) ARM (AUMULH (R (AR 7)) (R (AR 15)) (AR 23));
  (* 992 *) ARM (AADD false true (R (AR 22)) (R (AR 24)) (AR 24));
  (* 993 *) ARM (AADD true true (R (AR 23)) (R (AR 25)) (AR 25));
  (* 994 *) ARM (AADD true false (Imm 0) (R (AR 26)) (AR 26));
  (* 996 *) ARM (AMUL (R (AR 8)) (R (AR 14)) (AR 22));
  (* 997 *) ARM (AUMULH (R (AR 8)) (R (AR 14)) (AR 23));
  (* 998 *) ARM (AADD false true (R (AR 22)) (R (AR 24)) (AR 24));
  (* 999 *) ARM (AADD true true (R (AR 23)) (R (AR 25)) (AR 25));
  (* 1000 *) ARM (AADD true false (Imm 0) (R (AR 26)) (AR 26));
  (* 1002 *) ARM (AADD false true (R (AR 21)) (R (AR 24)) (AR 13));
  (* 1003 *) ARM (AADD true true (Imm 0) (R (AR 25)) (AR 25));
  (* 1004 *) ARM (AADD true false (Imm 0) (R (AR 26)) (AR 26));
  (* 1007 *) ARM (AMUL (R (AR 3)) (R (AR 20)) (AR 22));
  (* 1008 *) MOV (M (AR 1) 96) (R (AR 21));
  (* 1009 *) ARM (AUMULH (R (AR 3)) (R (AR 20)) (AR 23));
  (* 1010 *) ARM (AADD false true (R (AR 22)) (R (AR 25)) (AR 25));
  (* 1011 *) ARM (AADD true true (R (AR 23)) (R (AR 26)) (AR 26));
  (* 1012 *) ARM (AADD true false (Imm 0) (Imm 0) (AR 24));
  (* 1014 *) ARM (AMUL (R (AR 4)) (R (AR 19)) (AR 22));
  (* 1015 *) ARM (AUMULH (R (AR 4)) (R (AR 19)) (AR 23));
  (* 1016 *) ARM (AADD false true (R (AR 22)) (R (AR 25)) (AR 25));
  (* 1017 *) ARM (AADD true true (R (AR 23)) (R (AR 26)) (AR 26));
  (* 1018 *) ARM (AADD true false (Imm 0) (R (AR 24)) (AR 24));
  (* 1020 *) ARM (AMUL (R (AR 5)) (R (AR 29)) (AR 22));
  (* 1021 *) ARM (AUMULH (R (AR 5)) (R (AR 29)) (AR 23));
  (* 1022 *) ARM (AADD false true (R (AR 22)) (R (AR 25)) (AR 25));
  (* 1023 *) ARM (AADD true true (R (AR 23)) (R (AR 26)) (AR 26));
  (* 1024 *) ARM (AADD true false (Imm 0) (R (AR 24)) (AR 24));
  (* 1026 *) ARM (AMUL (R (AR 6)) (R (AR 17)) (AR 22));
  (* 1027 *) ARM (AUMULH (R (AR 6)) (R (AR 17)) (AR 23));
  (* 1028 *) ARM (AADD false true (R (AR 22)) (R (AR 25)) (AR 25));
  (* 1029 *) ARM (AADD true true (R (AR 23)) (R (AR 26)) (AR 26));
  (* 1030 *) ARM (AADD true false (Imm 0) (R (AR 24)) (AR 24));
  (* 1032 *) ARM (AMUL (R (AR 7)) (R (AR 16)) (AR 22));
  (* 1033 *) ARM (AUMULH (R (AR 7)) (R (AR 16)) (AR 23));
  (* 1034 *) ARM (AADD false true (R (AR 22)) (R (AR 25)) (AR 25));
  (* 1035 *) ARM (AADD true true (R (AR 23)) (R (AR 26)) (AR 26));
  (* 1036 *) ARM (AADD true false (Imm 0) (R (AR 24)) (AR 24));
  (* 1038 *) ARM (AMUL (R (AR 8)) (R (AR 15)) (AR 22));
  (* 1039 *) ARM (AUMULH (R (AR 8)) (R (AR 15)) (AR 23));
  (* 1040 *) ARM (AADD false true (R (AR 22)) (R (AR 25)) (AR 25));
  (* 1041 *) ARM (AADD true true (R (AR 23)) (R (AR 26)) (AR 26));
  (* 1042 *) ARM (AADD true false (Imm 0) (R (AR 24)) (AR 24));
  (* 1044 *) ARM (AMUL (R (AR 9)) (R (AR 14)) (AR 22));
  (* 1045 *) ARM (AUMULH (R (AR 9)) (R (AR 14)) (AR 23));
  (* 1046 *) ARM (AADD false true (R (AR 22)) (R (AR 25)) (AR 25));
  (* 1047 *) ARM (AADD true true (R (AR 23)) (R (AR 26)) (AR 26));
  (* 1048 *) ARM (AADD true false (Imm 0) (R (AR 24)) (AR 24));
  (* 1050 *) ARM (AADD false true (R (AR 21)) (R (AR 25)) (AR 2));
  (* 1051 *) ARM (AADD true true (Imm 0) (R (AR 26)) (AR 26));
  (* 1052 *) ARM (AADD true false (Imm 0) (R (AR 24)) (AR 24));
  (* 1055 *) ARM (AMUL (R (AR 4)) (R (AR 20)) (AR 22));
  (* 1056 *) MOV (M (AR 1) 104) (R (AR 21));
  (* 1057 *) ARM (AUMULH (R (AR 4)) (R (AR 20)) (AR 23));
  (* 1058 *) ARM (AADD false true (R (AR 22)) (R (AR 26)) (AR 26));
  (* 1059 *) ARM (AADD true true (R (AR 23)) (R (AR 24)) (AR 24));
  (* 1060 *) ARM (AADD true false (Imm 0) (Imm 0) (AR 25));
  (* 1062 *) ARM (AMUL (R (AR 5)) (R (AR 19)) (AR 22));
  (* 1063 *) ARM (AUMULH (R (AR 5)) (R (AR 19)) (AR 23));
  (* 1064 *) ARM (AADD false true (R (AR 22)) (R (AR 26)) (AR 26));
  (* 1065 *) ARM (AADD true true (R (AR 23)) (R (AR 24)) (AR 24));
  (* 1066 *) ARM (AADD true false (Imm 0) (R (AR 25)) (AR 25));
  (* 1068 *) ARM (AMUL (R (AR 6)) (R (AR 29)) (AR 22));
  (* 1069 *) ARM (AUMULH (R (AR 6)) (R (AR 29)) (AR 23));
  (* 1070 *) ARM (AADD false true (R (AR 22)) (R (AR 26)) (AR 26));
  (* 1071 *) ARM (AADD true true (R (AR 23)) (R (AR 24)) (AR 24));
  (* 1072 *) ARM (AADD true false (Imm 0) (R (AR 25)) (AR 25));
  (* 1074 *) ARM (AMUL (R (AR 7)) (R (AR 17)) (AR 22));
  (* 1075 *) ARM (AUMULH (R (AR 7)) (R (AR 17)) (AR 23));
  (* 1076 *) ARM (AADD false true (R (AR 22)) (R (AR 26)) (AR 26));
  (* 1077 *) ARM (AADD true true (R (AR 23)) (R (AR 24)) (AR 24));
  (* 1078 *) ARM (AADD true false (Imm 0) (R (AR 25)) (AR 25));
  (* 1080 *) ARM (AMUL (R (AR 8)) (R (AR 16)) (AR 22));
  (* 1081 *) ARM (AUMULH (R (AR 8)) (R (AR 16)) (AR 23));
  (* 1082 *) ARM (AADD false true (R (AR 22)) (R (AR 26)) (AR 26));
  (* 1083 *) ARM (AADD true true (R (AR 23)) (R (AR 24)) (AR 24));
  (* 1084 *) ARM (AADD true false (Imm 0) (R (AR 25)) (AR 25));
  (* 1086 *) ARM (AMUL (R (AR 9)) (R (AR 15)) (AR 22));
  (* 1087 *) ARM (AUMULH (R (AR 9)) (R (AR 15)) (AR 23));
  (* 1088 *) ARM (AADD false true (R (AR 22)) (R (AR 26)) (AR 26));
  (* 1089 *) ARM (AADD true true (R (AR 23)) (R (AR 24)) (AR 24));
  (* 1090 *) ARM (AADD true false (Imm 0) (R (AR 25)) (AR 25));
  (* 1092 *) ARM (AMUL (R (AR 10)) (R (AR 14)) (AR 22));
  (* 1093 *) ARM (AUMULH (R (AR 10)) (R (AR 14)) (AR 23));
  (* 1094 *) ARM (AADD false true (R (AR 22)) (R (AR 26)) (AR 26));
  (* 1095 *) ARM (AADD true true (R (AR 23)) (R (AR 24)) (AR 24));
  (* 1096 *) ARM (AADD true false (Imm 0) (R (AR 25)) (AR 25));
  (* 1098 *) ARM (AADD false true (R (AR 21)) (R (AR 26)) (AR 3));
  (* 1099 *) MOV (R (AR 2)) (M (AR 0) 0);
  (* 1099 *) MOV (R (AR 3)) (M (AR 0) 8);
  (* 1100 *) ARM (AADD true true (Imm 0) (R (AR 24)) (AR 24));
  (* 1101 *) ARM (AADD true false (Imm 0) (R (AR 25)) (AR 25));
  (* 1104 *) ARM (AMUL (R (AR 5)) (R (AR 20)) (AR 22));
  (* 1105 *) MOV (M (AR 1) 112) (R (AR 21));
  (* 1106 *) ARM (AUMULH (R (AR 5)) (R (AR 20)) (AR 23));
  (* 1107 *) ARM (AADD false true (R (AR 22)) (R (AR 24)) (AR 24));
  (* 1108 *) ARM (AADD true true (R (AR 23)) (R (AR 25)) (AR 25));
  (* 1109 *) ARM (AADD true false (Imm 0) (Imm 0) (AR 26));
  (* 1111 *) ARM (AMUL (R (AR 6)) (R (AR 19)) (AR 22));
  (* 1112 *) ARM (AUMULH (R (AR 6)) (R (AR 19)) (AR 23));
  (* 1113 *) ARM (AADD false true (R (AR 22)) (R (AR 24)) (AR 24));
  (* 1114 *) ARM (AADD true true (R (AR 23)) (R (AR 25)) (AR 25));
  (* 1115 *) ARM (AADD true false (Imm 0) (R (AR 26)) (AR 26));
  (* 1117 *) ARM (AMUL (R (AR 7)) (R (AR 29)) (AR 22));
  (* 1118 *) ARM (AUMULH (R (AR 7)) (R (AR 29)) (AR 23));
  (* 1119 *) ARM (AADD false true (R (AR 22)) (R (AR 24)) (AR 24));
  (* 1120 *) ARM (AADD true true (R (AR 23)) (R (AR 25)) (AR 25));
  (* 1121 *) ARM (AADD true false (Imm 0) (R (AR 26)) (AR 26));
  (* 1123 *) ARM (AMUL (R (AR 8)) (R (AR 17)) (AR 22));
  (* 1124 *) ARM (AUMULH (R (AR 8)) (R (AR 17)) (AR 23));
  (* 1125 *) ARM (AADD false true (R (AR 22)) (R (AR 24)) (AR 24));
  (* 1126 *) ARM (AADD true true (R (AR 23)) (R (AR 25)) (AR 25));
  (* 1127 *) ARM (AADD true false (Imm 0) (R (AR 26)) (AR 26));
  (* 1129 *) ARM (AMUL (R (AR 9)) (R (AR 16)) (AR 22));
  (* 1130 *) ARM (AUMULH (R (AR 9)) (R (AR 16)) (AR 23));
  (* 1131 *) ARM (AADD false true (R (AR 22)) (R (AR 24)) (AR 24));
  (* 1132 *) ARM (AADD true true (R (AR 23)) (R (AR 25)) (AR 25));
  (* 1133 *) ARM (AADD true false (Imm 0) (R (AR 26)) (AR 26));
  (* 1135 *) ARM (AMUL (R (AR 10)) (R (AR 15)) (AR 22));
  (* 1136 *) ARM (AUMULH (R (AR 10)) (R (AR 15)) (AR 23));
  (* 1137 *) ARM (AADD false true (R (AR 22)) (R (AR 24)) (AR 24));
  (* 1138 *) ARM (AADD true true (R (AR 23)) (R (AR 25)) (AR 25));
  (* 1139 *) ARM (AADD true false (Imm 0) (R (AR 26)) (AR 26));
  (* 1141 *) ARM (AMUL (R (AR 11)) (R (AR 14)) (AR 22));
  (* 1142 *) ARM (AUMULH (R (AR 11)) (R (AR 14)) (AR 23));
  (* 1143 *) ARM (AADD false true (R (AR 22)) (R (AR 24)) (AR 24));
  (* 1144 *) ARM (AADD true true (R (AR 23)) (R (AR 25)) (AR 25));
  (* 1145 *) ARM (AADD true false (Imm 0) (R (AR 26)) (AR 26));
  (* 1147 *) ARM (AADD false true (R (AR 21)) (R (AR 24)) (AR 4));
  (* 1148 *) ARM (AADD true true (Imm 0) (R (AR 25)) (AR 25));
  (* 1149 *) ARM (AADD true false (Imm 0) (R (AR 26)) (AR 26));
  (* 1152 *) ARM (AMUL (R (AR 6)) (R (AR 20)) (AR 22));
  (* 1153 *) MOV (M (AR 1) 120) (R (AR 21));
  (* 1154 *) ARM (AUMULH (R (AR 6)) (R (AR 20)) (AR 23));
  (* 1155 *) ARM (AADD false true (R (AR 22)) (R (AR 25)) (AR 25));
  (* 1156 *) ARM (AADD true true (R (AR 23)) (R (AR 26)) (AR 26));
  (* 1157 *) ARM (AADD true false (Imm 0) (Imm 0) (AR 24));
  (* 1159 *) ARM (AMUL (R (AR 7)) (R (AR 19)) (AR 22));
  (* 1160 *) ARM (AUMULH (R (AR 7)) (R (AR 19)) (AR 23));
  (* 1161 *) ARM (AADD false true (R (AR 22)) (R (AR 25)) (AR 25));
  (* 1162 *) ARM (AADD true true (R (AR 23)) (R (AR 26)) (AR 26));
  (* 1163 *) ARM (AADD true false (Imm 0) (R (AR 24)) (AR 24));
  (* 1165 *) ARM (AMUL (R (AR 8)) (R (AR 29)) (AR 22));
  (* 1166 *) ARM (AUMULH (R (AR 8)) (R (AR 29)) (AR 23));
  (* 1167 *) ARM (AADD false true (R (AR 22)) (R (AR 25)) (AR 25));
  (* 1168 *) ARM (AADD true true (R (AR 23)) (R (AR 26)) (AR 26));
  (* 1169 *) ARM (AADD true false (Imm 0) (R (AR 24)) (AR 24));
  (* 1171 *) ARM (AMUL (R (AR 9)) (R (AR 17)) (AR 22));
  (* 1172 *) ARM (AUMULH (R (AR 9)) (R (AR 17)) (AR 23));
  (* 1173 *) ARM (AADD false true (R (AR 22)) (R (AR 25)) (AR 25));
  (* 1174 *) ARM (AADD true true (R (AR 23)) (R (AR 26)) (AR 26));
  (* 1175 *) ARM (AADD true false (Imm 0) (R (AR 24)) (AR 24));
  (* 1177 *) ARM (AMUL (R (AR 10)) (R (AR 16)) (AR 22));
  (* 1178 *) ARM (AUMULH (R (AR 10)) (R (AR 16)) (AR 23));
  (* 1179 *) ARM (AADD false true (R (AR 22)) (R (AR 25)) (AR 25));
  (* 1180 *) ARM (AADD true true (R (AR 23)) (R (AR 26)) (AR 26));
  (* 1181 *) ARM (AADD true false (Imm 0) (R (AR 24)) (AR 24));
  (* 1183 *) ARM (AMUL (R (AR 11)) (R (AR 15)) (AR 22));
  (* 1184 *) ARM (AUMULH (R (AR 11)) (R (AR 15)) (AR 23));
  (* 1185 *) ARM (AADD false true (R (AR 22)) (R (AR 25)) (AR 25));
  (* 1186 *) ARM (AADD true true (R (AR 23)) (R (AR 26)) (AR 26));
  (* 1187 *) ARM (AADD true false (Imm 0) (R (AR 24)) (AR 24));
  (* 1189 *) ARM (AMUL (R (AR 12)) (R (AR 14)) (AR 22));
  (* 1190 *) ARM (AUMULH (R (AR 12)) (R (AR 14)) (AR 23));
  (* 1191 *) ARM (AADD false true (R (AR 22)) (R (AR 25)) (AR 25));
  (* 1192 *) ARM (AADD true true (R (AR 23)) (R (AR 26)) (AR 26));
  (* 1193 *) ARM (AADD true false (Imm 0) (R (AR 24)) (AR 24));
  (* 1195 *) ARM (AADD false true (R (AR 21)) (R (AR 25)) (AR 5));
  (* 1196 *) MOV (R (AR 4)) (M (AR 0) 16);
  (* 1196 *) MOV (R (AR 5)) (M (AR 0) 24);
  (* 1197 *) ARM (AADD true true (Imm 0) (R (AR 26)) (AR 26));
  (* 1198 *) ARM (AADD true false (Imm 0) (R (AR 24)) (AR 24));
  (* 1201 *) ARM (AMUL (R (AR 7)) (R (AR 20)) (AR 22));
  (* 1202 *) MOV (M (AR 1) 128) (R (AR 21));
  (* 1203 *) ARM (AUMULH (R (AR 7)) (R (AR 20)) (AR 23));
  (* 1204 *) ARM (AADD false true (R (AR 22)) (R (AR 26)) (AR 26));
  (* 1205 *) ARM (AADD true true (R (AR 23)) (R (AR 24)) (AR 24));
  (* 1206 *) ARM (AADD true false (Imm 0) (Imm 0) (AR 25));
  (* 1208 *) ARM (AMUL (R (AR 8)) (R (AR 19)) (AR 22));
  (* 1209 *) ARM (AUMULH (R (AR 8)) (R (AR 19)) (AR 23));
  (* 1210 *) ARM (AADD false true (R (AR 22)) (R (AR 26)) (AR 26));
  (* 1211 *) ARM (AADD true true (R (AR 23)) (R (AR 24)) (AR 24));
  (* 1212 *) ARM (AADD true false (Imm 0) (R (AR 25)) (AR 25));
  (* 1214 *) ARM (AMUL (R (AR 9)) (R (AR 29)) (AR 22));
  (* 1215 *) ARM (AUMULH (R (AR 9)) (R (AR 29)) (AR 23));
  (* 1216 *) ARM (AADD false true (R (AR 22)) (R (AR 26)) (AR 26));
  (* 1217 *) ARM (AADD true true (R (AR 23)) (R (AR 24)) (AR 24));
  (* 1218 *) ARM (AADD true false (Imm 0) (R (AR 25)) (AR 25));
  (* 1220 *) ARM (AMUL (R (AR 10)) (R (AR 17)) (AR 22));
  (* 1221 *) ARM (AUMULH (R (AR 10)) (R (AR 17)) (AR 23));
  (* 1222 *) ARM (AADD false true (R (AR 22)) (R (AR 26)) (AR 26));
  (* 1223 *) ARM (AADD true true (R (AR 23)) (R (AR 24)) (AR 24));
  (* 1224 *) ARM (AADD true false (Imm 0) (R (AR 25)) (AR 25));
  (* 1226 *) ARM (AMUL (R (AR 11)) (R (AR 16)) (AR 22));
  (* 1227 *) ARM (AUMULH (R (AR 11)) (R (AR 16)) (AR 23));
  (* 1228 *) ARM (AADD false true (R (AR 22)) (R (AR 26)) (AR 26));
  (* 1229 *) ARM (AADD true true (R (AR 23)) (R (AR 24)) (AR 24));
  (* 1230 *) ARM (AADD true false (Imm 0) (R (AR 25)) (AR 25));
  (* 1232 *) ARM (AMUL (R (AR 12)) (R (AR 15)) (AR 22));
  (* 1233 *) ARM (AUMULH (R (AR 12)) (R (AR 15)) (AR 23));
  (* 1234 *) ARM (AADD false true (R (AR 22)) (R (AR 26)) (AR 26));
  (* 1235 *) ARM (AADD true true (R (AR 23)) (R (AR 24)) (AR 24));
  (* 1236 *) ARM (AADD true false (Imm 0) (R (AR 25)) (AR 25));
  (* 1238 *) ARM (AMUL (R (AR 13)) (R (AR 14)) (AR 22));
  (* 1239 *) ARM (AUMULH (R (AR 13)) (R (AR 14)) (AR 23));
  (* 1240 *) ARM (AADD false true (R (AR 22)) (R (AR 26)) (AR 26));
  (* 1241 *) ARM (AADD true true (R (AR 23)) (R (AR 24)) (AR 24));
  (* 1242 *) ARM (AADD true false (Imm 0) (R (AR 25)) (AR 25));
  (* 1244 *) ARM (AADD false true (R (AR 21)) (R (AR 26)) (AR 6));
  (* 1245 *) ARM (AADD true true (Imm 0) (R (AR 24)) (AR 24));
  (* 1246 *) ARM (AADD true false (Imm 0) (R (AR 25)) (AR 25));
  (* 1249 *) ARM (AMUL (R (AR 8)) (R (AR 20)) (AR 22));
  (* 1250 *) MOV (M (AR 1) 136) (R (AR 21));
  (* 1251 *) ARM (AUMULH (R (AR 8)) (R (AR 20)) (AR 23));
  (* 1252 *) ARM (AADD false true (R (AR 22)) (R (AR 24)) (AR 24));
  (* 1253 *) ARM (AADD true true (R (AR 23)) (R (AR 25)) (AR 25));
  (* 1254 *) ARM (AADD true false (Imm 0) (Imm 0) (AR 26));
  (* 1256 *) ARM (AMUL (R (AR 9)) (R (AR 19)) (AR 22));
  (* 1257 *) ARM (AUMULH (R (AR 9)) (R (AR 19)) (AR 23));
  (* 1258 *) ARM (AADD false true (R (AR 22)) (R (AR 24)) (AR 24));
  (* 1259 *) ARM (AADD true true (R (AR 23)) (R (AR 25)) (AR 25));
  (* 1260 *) ARM (AADD true false (Imm 0) (R (AR 26)) (AR 26));
  (* 1262 *) ARM (AMUL (R (AR 10)) (R (AR 29)) (AR 22));
  (* 1263 *) ARM (AUMULH (R (AR 10)) (R (AR 29)) (AR 23));
  (* 1264 *) ARM (AADD false true (R (AR 22)) (R (AR 24)) (AR 24));
  (* 1265 *) ARM (AADD true true (R (AR 23)) (R (AR 25)) (AR 25));
  (* 1266 *) ARM (AADD true false (Imm 0) (R (AR 26)) (AR 26));
  (* 1268 *) ARM (AMUL (R (AR 11)) (R (AR 17)) (AR 22));
  (* 1269 *) ARM (AUMULH (R (AR 11)) (R (AR 17)) (AR 23));
  (* 1270 *) ARM (AADD false true (R (AR 22)) (R (AR 24)) (AR 24));
  (* 1271 *) ARM (AADD true true (R (AR 23)) (R (AR 25)) (AR 25));
  (* 1272 *) ARM (AADD true false (Imm 0) (R (AR 26)) (AR 26));
  (* 1274 *) ARM (AMUL (R (AR 12)) (R (AR 16)) (AR 22));
  (* 1275 *) ARM (AUMULH (R (AR 12)) (R (AR 16)) (AR 23));
  (* 1276 *) ARM (AADD false true (R (AR 22)) (R (AR 24)) (AR 24));
  (* 1277 *) ARM (AADD true true (R (AR 23)) (R (AR 25)) (AR 25));
  (* 1278 *) ARM (AADD true false (Imm 0) (R (AR 26)) (AR 26));
  (* 1280 *) ARM (AMUL (R (AR 13)) (R (AR 15)) (AR 22));
  (* 1281 *) ARM (AUMULH (R (AR 13)) (R (AR 15)) (AR 23));
  (* 1282 *) ARM (AADD false true (R (AR 22)) (R (AR 24)) (AR 24));
  (* 1283 *) ARM (AADD true true (R (AR 23)) (R (AR 25)) (AR 25));
  (* 1284 *) ARM (AADD true false (Imm 0) (R (AR 26)) (AR 26));
  (* 1286 *) ARM (AADD false true (R (AR 21)) (R (AR 24)) (AR 7));
  (* 1287 *) MOV (R (AR 6)) (M (AR 0) 32);
  (* 1287 *) MOV (R (AR 7)) (M (AR 0) 40);
  (* 1288 *) ARM (AADD true true (Imm 0) (R (AR 25)) (AR 25));
  (* 1289 *) ARM (AADD true false (Imm 0) (R (AR 26)) (AR 26));
  (* 1292 *) ARM (AMUL (R (AR 9)) (R (AR 20)) (AR 22));
  (* 1293 *) MOV (M (AR 1) 144) (R (AR 21));
  (* 1294 *) ARM (AUMULH (R (AR 9)) (R (AR 20)) (AR 23));
  (* 1295 *) ARM (AADD false true (R (AR 22)) (R (AR 25)) (AR 25));
  (* 1296 *) ARM (AADD true true (R (AR 23)) (R (AR 26)) (AR 26));
  (* 1297 *) ARM (AADD true false (Imm 0) (Imm 0) (AR 24));
  (* 1299 *) ARM (AMUL (R (AR 10)) (R (AR 19)) (AR 22));
  (* 1300 *) ARM (AUMULH (R (AR 10)) (R (AR 19)) (AR 23));
  (* 1301 *) ARM (AADD false true (R (AR 22)) (R (AR 25)) (AR 25));
  (* 1302 *) ARM (AADD true true (R (AR 23)) (R (AR 26)) (AR 26));
  (* 1303 *) ARM (AADD true false (Imm 0) (R (AR 24)) (AR 24));
  (* 1305 *) ARM (AMUL (R (AR 11)) (R (AR 29)) (AR 22));
  (* 1306 *) ARM (AUMULH (R (AR 11)) (R (AR 29)) (AR 23));
  (* 1307 *) ARM (AADD false true (R (AR 22)) (R (AR 25)) (AR 25));
  (* 1308 *) ARM (AADD true true (R (AR 23)) (R (AR 26)) (AR 26));
  (* 1309 *) ARM (AADD true false (Imm 0) (R (AR 24)) (AR 24));
  (* 1311 *) ARM (AMUL (R (AR 12)) (R (AR 17)) (AR 22));
  (* 1312 *) ARM (AUMULH (R (AR 12)) (R (AR 17)) (AR 23));
  (* 1313 *) ARM (AADD false true (R (AR 22)) (R (AR 25)) (AR 25));
  (* 1314 *) ARM (AADD true true (R (AR 23)) (R (AR 26)) (AR 26));
  (* 1315 *) ARM (AADD true false (Imm 0) (R (AR 24)) (AR 24));
  (* 1317 *) ARM (AMUL (R (AR 13)) (R (AR 16)) (AR 22));
  (* 1318 *) ARM (AUMULH (R (AR 13)) (R (AR 16)) (AR 23));
  (* 1319 *) ARM (AADD false true (R (AR 22)) (R (AR 25)) (AR 25));
  (* 1320 *) ARM (AADD true true (R (AR 23)) (R (AR 26)) (AR 26));
  (* 1321 *) ARM (AADD true false (Imm 0) (R (AR 24)) (AR 24));
  (* 1323 *) ARM (AADD false true (R (AR 21)) (R (AR 25)) (AR 8));
  (* 1324 *) ARM (AADD true true (Imm 0) (R (AR 26)) (AR 26));
  (* 1325 *) ARM (AADD true false (Imm 0) (R (AR 24)) (AR 24));
  (* 1328 *) ARM (AMUL (R (AR 10)) (R (AR 20)) (AR 22));
  (* 1329 *) MOV (M (AR 1) 152) (R (AR 21));
  (* 1330 *) ARM (AUMULH (R (AR 10)) (R (AR 20)) (AR 23));
  (* 1331 *) ARM (AADD false true (R (AR 22)) (R (AR 26)) (AR 26));
  (* 1332 *) ARM (AADD true true (R (AR 23)) (R (AR 24)) (AR 24));
  (* 1333 *) ARM (AADD true false (Imm 0) (Imm 0) (AR 25));
  (* 1335 *) ARM (AMUL (R (AR 11)) (R (AR 19)) (AR 22));
  (* 1336 *) ARM (AUMULH (R (AR 11)) (R (AR 19)) (AR 23));
  (* 1337 *) ARM (AADD false true (R (AR 22)) (R (AR 26)) (AR 26));
  (* 1338 *) ARM (AADD true true (R (AR 23)) (R (AR 24)) (AR 24));
  (* 1339 *) ARM (AADD true false (Imm 0) (R (AR 25)) (AR 25));
  (* 1341 *) ARM (AMUL (R (AR 12)) (R (AR 29)) (AR 22));
  (* 1342 *) ARM (AUMULH (R (AR 12)) (R (AR 29)) (AR 23));
  (* 1343 *) ARM (AADD false true (R (AR 22)) (R (AR 26)) (AR 26));
  (* 1344 *) ARM (AADD true true (R (AR 23)) (R (AR 24)) (AR 24));
  (* 1345 *) ARM (AADD true false (Imm 0) (R (AR 25)) (AR 25));
  (* 1347 *) ARM (AMUL (R (AR 13)) (R (AR 17)) (AR 22));
  (* 1348 *) ARM (AUMULH (R (AR 13)) (R (AR 17)) (AR 23));
  (* 1349 *) ARM (AADD false true (R (AR 22)) (R (AR 26)) (AR 26));
  (* 1350 *) ARM (AADD true true (R (AR 23)) (R (AR 24)) (AR 24));
  (* 1351 *) ARM (AADD true false (Imm 0) (R (AR 25)) (AR 25));
  (* 1353 *) ARM (AADD false true (R (AR 21)) (R (AR 26)) (AR 9));
  (* 1354 *) MOV (R (AR 8)) (M (AR 0) 48);
  (* 1354 *) MOV (R (AR 9)) (M (AR 0) 56);
  (* 1355 *) ARM (AADD true true (Imm 0) (R (AR 24)) (AR 24));
  (* 1356 *) ARM (AADD true false (Imm 0) (R (AR 25)) (AR 25));
  (* 1359 *) ARM (AMUL (R (AR 11)) (R (AR 20)) (AR 22));
  (* 1360 *) MOV (M (AR 1) 160) (R (AR 21));
  (* 1361 *) ARM (AUMULH (R (AR 11)) (R (AR 20)) (AR 23));
  (* 1362 *) ARM (AADD false true (R (AR 22)) (R (AR 24)) (AR 24));
  (* 1363 *) ARM (AADD true true (R (AR 23)) (R (AR 25)) (AR 25));
  (* 1364 *) ARM (AADD true false (Imm 0) (Imm 0) (AR 26));
  (* 1366 *) ARM (AMUL (R (AR 12)) (R (AR 19)) (AR 22));
  (* 1367 *) ARM (AUMULH (R (AR 12)) (R (AR 19)) (AR 23));
  (* 1368 *) ARM (AADD false true (R (AR 22)) (R (AR 24)) (AR 24));
  (* 1369 *) ARM (AADD true true (R (AR 23)) (R (AR 25)) (AR 25));
  (* 1370 *) ARM (AADD true false (Imm 0) (R (AR 26)) (AR 26));
  (* 1372 *) ARM (AMUL (R (AR 13)) (R (AR 29)) (AR 22));
  (* 1373 *) ARM (AUMULH (R (AR 13)) (R (AR 29)) (AR 23));
  (* 1374 *) ARM (AADD false true (R (AR 22)) (R (AR 24)) (AR 24));
  (* 1375 *) ARM (AADD true true (R (AR 23)) (R (AR 25)) (AR 25));
  (* 1376 *) ARM (AADD true false (Imm 0) (R (AR 26)) (AR 26));
  (* 1378 *) ARM (AADD false true (R (AR 21)) (R (AR 24)) (AR 10));
  (* 1379 *) ARM (AADD true true (Imm 0) (R (AR 25)) (AR 25));
  (* 1380 *) ARM (AADD true false (Imm 0) (R (AR 26)) (AR 26));
  (* 1383 *) ARM (AMUL (R (AR 12)) (R (AR 20)) (AR 22));
  (* 1384 *) MOV (M (AR 1) 168) (R (AR 21));
  (* 1385 *) ARM (AUMULH (R (AR 12)) (R (AR 20)) (AR 23));
  (* 1386 *) ARM (AADD false true (R (AR 22)) (R (AR 25)) (AR 25));
  (* 1387 *) ARM (AADD true true (R (AR 23)) (R (AR 26)) (AR 26));
  (* 1388 *) ARM (AADD true false (Imm 0) (Imm 0) (AR 24));
  (* 1390 *) ARM (AMUL (R (AR 13)) (R (AR 19)) (AR 22));
  (* 1391 *) ARM (AUMULH (R (AR 13)) (R (AR 19)) (AR 23));
  (* 1392 *) ARM (AADD false true (R (AR 22)) (R (AR 25)) (AR 25));
  (* 1393 *) ARM (AADD true true (R (AR 23)) (R (AR 26)) (AR 26));
  (* 1394 *) ARM (AADD true false (Imm 0) (R (AR 24)) (AR 24));
  (* 1396 *) ARM (AADD false true (R (AR 21)) (R (AR 25)) (AR 11));
  (* 1397 *) MOV (R (AR 10)) (M (AR 0) 64);
  (* 1397 *) MOV (R (AR 11)) (M (AR 0) 72);
  (* 1398 *) ARM (AADD true true (Imm 0) (R (AR 26)) (AR 26));
  (* 1399 *) ARM (AADD true false (Imm 0) (R (AR 24)) (AR 24));
  (* 1402 *) ARM (AMUL (R (AR 13)) (R (AR 20)) (AR 22));
  (* 1403 *) MOV (M (AR 1) 176) (R (AR 21));
  (* 1404 *) ARM (AUMULH (R (AR 13)) (R (AR 20)) (AR 23));
  (* 1405 *) ARM (AADD false true (R (AR 22)) (R (AR 26)) (AR 26));
  (* 1406 *) ARM (AADD true false (R (AR 23)) (R (AR 24)) (AR 24));
  (* 1407 *) ARM (AADD false true (R (AR 21)) (R (AR 26)) (AR 12));
  (* 1409 *) MOV (M (AR 1) 184) (R (AR 21));
  (* 1410 *) ARM (AADD true false (R (AR 21)) (R (AR 24)) (AR 13));
  (* 1411 *) MOV (R (AR 12)) (M (AR 0) 80);
  (* 1411 *) MOV (R (AR 13)) (M (AR 0) 88)].
(* modP751, arith_arm64.s from line 1415, frame of 0 bytes *)
Definition modP751Arm : list instr := [
  (* 1416 *) MOV (A 0) (R (AR 0));
  (* 1419 *) MOV (G 0 0) (R (AR 13));
  (* 1420 *) MOV (M (AR 0) 0) (R (AR 1));
  (* 1420 *) MOV (M (AR 0) 8) (R (AR 2));
  (* 1421 *) MOV (M (AR 0) 16) (R (AR 3));
  (* 1421 *) MOV (M (AR 0) 24) (R (AR 4));
  (* 1422 *) ARM (ASUB false true (R (AR 13)) (R (AR 1)) (AR 1));
  (* 1423 *) ARM (ASUB true true (R (AR 13)) (R (AR 2)) (AR 2));
  (* 1425 *) MOV (M (AR 0) 32) (R (AR 5));
  (* 1425 *) MOV (M (AR 0) 40) (R (AR 6));
  (* 1426 *) MOV (G 0 40) (R (AR 14));
  (* 1426 *) MOV (G 0 48) (R (AR 15));
  (* 1427 *) ARM (ASUB true true (R (AR 13)) (R (AR 3)) (AR 3));
  (* 1428 *) ARM (ASUB true true (R (AR 13)) (R (AR 4)) (AR 4));
  (* 1430 *) MOV (M (AR 0) 48) (R (AR 7));
  (* 1430 *) MOV (M (AR 0) 56) (R (AR 8));
  (* 1431 *) MOV (G 0 56) (R (AR 16));
  (* 1431 *) MOV (G 0 64) (R (AR 17));
  (* 1432 *) ARM (ASUB true true (R (AR 13)) (R (AR 5)) (AR 5));
  (* 1433 *) ARM (ASUB true true (R (AR 14)) (R (AR 6)) (AR 6));
  (* 1435 *) MOV (M (AR 0) 64) (R (AR 9));
  (* 1435 *) MOV (M (AR 0) 72) (R (AR 10));
  (* 1436 *) MOV (G 0 72) (R (AR 19));
  (* 1436 *) MOV (G 0 80) (R (AR 20));
  (* 1437 *) ARM (ASUB true true (R (AR 15)) (R (AR 7)) (AR 7));
  (* 1438 *) ARM (ASUB true true (R (AR 16)) (R (AR 8)) (AR 8));
  (* 1440 *) MOV (M (AR 0) 80) (R (AR 11));
  (* 1440 *) MOV (M (AR 0) 88) (R (AR 12));
  (* 1441 *) MOV (G 0 88) (R (AR 21));
  (* 1442 *) ARM (ASUB true true (R (AR 17)) (R (AR 9)) (AR 9));
  (* 1443 *) ARM (ASUB true true (R (AR 19)) (R (AR 10)) (AR 10));
  (* 1445 *) ARM (ASUB true true (R (AR 20)) (R (AR 11)) (AR 11));
  (* 1446 *) ARM (ASUB true true (R (AR 21)) (R (AR 12)) (AR 12));
  (* 1447 *) ARM (ASUB true false (Imm 0) (Imm 0) (AR 22));
  (* 1450 *) ARM (AAND (R (AR 22)) (R (AR 13)) (AR 13));
  (* 1451 *) ARM (AAND (R (AR 22)) (R (AR 14)) (AR 14));
  (* 1452 *) ARM (AAND (R (AR 22)) (R (AR 15)) (AR 15));
  (* 1453 *) ARM (AAND (R (AR 22)) (R (AR 16)) (AR 16));
  (* 1454 *) ARM (AAND (R (AR 22)) (R (AR 17)) (AR 17));
  (* 1455 *) ARM (AAND (R (AR 22)) (R (AR 19)) (AR 19));
  (* 1456 *) ARM (AAND (R (AR 22)) (R (AR 20)) (AR 20));
  (* 1457 *) ARM (AAND (R (AR 22)) (R (AR 21)) (AR 21));
  (* 1459 *) ARM (AADD false true (R (AR 13)) (R (AR 1)) (AR 1));
  (* 1460 *) ARM (AADD true true (R (AR 13)) (R (AR 2)) (AR 2));
  (* 1461 *) MOV (R (AR 1)) (M (AR 0) 0);
  (* 1461 *) MOV (R (AR 2)) (M (AR 0) 8);
  (* 1462 *) ARM (AADD true true (R (AR 13)) (R (AR 3)) (AR 3));
  (* 1463 *) ARM (AADD true true (R (AR 13)) (R (AR 4)) (AR 4));
  (* 1464 *) MOV (R (AR 3)) (M (AR 0) 16);
  (* 1464 *) MOV (R (AR 4)) (M (AR 0) 24);
  (* 1465 *) ARM (AADD true true (R (AR 13)) (R (AR 5)) (AR 5));
  (* 1466 *) ARM (AADD true true (R (AR 14)) (R (AR 6)) (AR 6));
  (* 1467 *) MOV (R (AR 5)) (M (AR 0) 32);
  (* 1467 *) MOV (R (AR 6)) (M (AR 0) 40);
  (* 1468 *) ARM (AADD true true (R (AR 15)) (R (AR 7)) (AR 7));
  (* 1469 *) ARM (AADD true true (R (AR 16)) (R (AR 8)) (AR 8));
  (* 1470 *) MOV (R (AR 7)) (M (AR 0) 48);
  (* 1470 *) MOV (R (AR 8)) (M (AR 0) 56);
  (* 1471 *) ARM (AADD true true (R (AR 17)) (R (AR 9)) (AR 9));
  (* 1472 *) ARM (AADD true true (R (AR 19)) (R (AR 10)) (AR 10));
  (* 1473 *) MOV (R (AR 9)) (M (AR 0) 64);
  (* 1473 *) MOV (R (AR 10)) (M (AR 0) 72);
  (* 1474 *) ARM (AADD true true (R (AR 20)) (R (AR 11)) (AR 11));
  (* 1475 *) ARM (AADD true false (R (AR 21)) (R (AR 12)) (AR 12));
  (* 1476 *) MOV (R (AR 11)) (M (AR 0) 80);
  (* 1476 *) MOV (R (AR 12)) (M (AR 0) 88)].
