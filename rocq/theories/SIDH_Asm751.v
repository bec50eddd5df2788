(* The amd64 routines of dh/sidh/internal/p751/arith_amd64.s, with its macros expanded; the number before an instruction is its
   line (that of the macro call for a macro).  MOVQ/ADDQ/... lose their size suffix; RET is the end of a list; CMPB flag, $1
   followed by JE is JFLAG, with the code at its label as a separate list; MOVB followed by MOVBLZX is MOVZXB. *)
From Coq Require Import ZArith List.
From Verif Require Import X86 SIDH_Asm434.
Import ListNotations.
Open Scope Z_scope.

(* modP751, arith_amd64.s from line 42, frame of 0 bytes *)
Definition modP751Asm : list instr := [
  (* 43 *) MOV (A 0) (R DI);
  (* 46 *) XOR (R AX) (R AX);
  (* 49 *) MOV (Imm 18446744073709551615) (R R8);
  (* 51 *) MOV (Imm 17199246976927924223) (R R9);
  (* 52 *) MOV (Imm 16423667440329193640) (R R10);
  (* 53 *) MOV (Imm 15750665808104639606) (R R11);
  (* 54 *) MOV (Imm 598583372241692790) (R R12);
  (* 55 *) MOV (Imm 9611443585101748040) (R R13);
  (* 56 *) MOV (Imm 1014031881231588454) (R R14);
  (* 57 *) MOV (Imm 123032916064028) (R R15);
  (* 60 *) SUB (R R8) (M DI 0);
  (* 61 *) SBB (R R8) (M DI 8);
  (* 62 *) SBB (R R8) (M DI 16);
  (* 63 *) SBB (R R8) (M DI 24);
  (* 64 *) SBB (R R8) (M DI 32);
  (* 65 *) SBB (R R9) (M DI 40);
  (* 66 *) SBB (R R10) (M DI 48);
  (* 67 *) SBB (R R11) (M DI 56);
  (* 68 *) SBB (R R12) (M DI 64);
  (* 69 *) SBB (R R13) (M DI 72);
  (* 70 *) SBB (R R14) (M DI 80);
  (* 71 *) SBB (R R15) (M DI 88);
  (* 74 *) SBB (Imm 0) (R AX);
  (* 77 *) AND (R AX) (R R8);
  (* 78 *) AND (R AX) (R R9);
  (* 79 *) AND (R AX) (R R10);
  (* 80 *) AND (R AX) (R R11);
  (* 81 *) AND (R AX) (R R12);
  (* 82 *) AND (R AX) (R R13);
  (* 83 *) AND (R AX) (R R14);
  (* 84 *) AND (R AX) (R R15);
  (* 86 *) ADD (R R8) (M DI 0);
  (* 87 *) ADC (R R8) (M DI 8);
  (* 88 *) ADC (R R8) (M DI 16);
  (* 89 *) ADC (R R8) (M DI 24);
  (* 90 *) ADC (R R8) (M DI 32);
  (* 91 *) ADC (R R9) (M DI 40);
  (* 92 *) ADC (R R10) (M DI 48);
  (* 93 *) ADC (R R11) (M DI 56);
  (* 94 *) ADC (R R12) (M DI 64);
  (* 95 *) ADC (R R13) (M DI 72);
  (* 96 *) ADC (R R14) (M DI 80);
  (* 97 *) ADC (R R15) (M DI 88) ].

(* cswapP751, arith_amd64.s from line 101, frame of 0 bytes *)
Definition cswapP751Asm : list instr := [
  (* 103 *) MOV (A 0) (R DI);
  (* 104 *) MOV (A 8) (R SI);
  (* 105 *) MOVZXB (A 16) AX;
  (* 107 *) NEG (R AX);
  (* 109 *) MOV (M DI 0) (R BX);
  (* 110 *) MOV (M SI 0) (R CX);
  (* 111 *) MOV (R CX) (R DX);
  (* 112 *) XOR (R BX) (R DX);
  (* 113 *) AND (R AX) (R DX);
  (* 114 *) XOR (R DX) (R BX);
  (* 115 *) XOR (R DX) (R CX);
  (* 116 *) MOV (R BX) (M DI 0);
  (* 117 *) MOV (R CX) (M SI 0);
  (* 119 *) MOV (M DI 8) (R BX);
  (* 120 *) MOV (M SI 8) (R CX);
  (* 121 *) MOV (R CX) (R DX);
  (* 122 *) XOR (R BX) (R DX);
  (* 123 *) AND (R AX) (R DX);
  (* 124 *) XOR (R DX) (R BX);
  (* 125 *) XOR (R DX) (R CX);
  (* 126 *) MOV (R BX) (M DI 8);
  (* 127 *) MOV (R CX) (M SI 8);
  (* 129 *) MOV (M DI 16) (R BX);
  (* 130 *) MOV (M SI 16) (R CX);
  (* 131 *) MOV (R CX) (R DX);
  (* 132 *) XOR (R BX) (R DX);
  (* 133 *) AND (R AX) (R DX);
  (* 134 *) XOR (R DX) (R BX);
  (* 135 *) XOR (R DX) (R CX);
  (* 136 *) MOV (R BX) (M DI 16);
  (* 137 *) MOV (R CX) (M SI 16);
  (* 139 *) MOV (M DI 24) (R BX);
  (* 140 *) MOV (M SI 24) (R CX);
  (* 141 *) MOV (R CX) (R DX);
  (* 142 *) XOR (R BX) (R DX);
  (* 143 *) AND (R AX) (R DX);
  (* 144 *) XOR (R DX) (R BX);
  (* 145 *) XOR (R DX) (R CX);
  (* 146 *) MOV (R BX) (M DI 24);
  (* 147 *) MOV (R CX) (M SI 24);
  (* 149 *) MOV (M DI 32) (R BX);
  (* 150 *) MOV (M SI 32) (R CX);
  (* 151 *) MOV (R CX) (R DX);
  (* 152 *) XOR (R BX) (R DX);
  (* 153 *) AND (R AX) (R DX);
  (* 154 *) XOR (R DX) (R BX);
  (* 155 *) XOR (R DX) (R CX);
  (* 156 *) MOV (R BX) (M DI 32);
  (* 157 *) MOV (R CX) (M SI 32);
  (* 159 *) MOV (M DI 40) (R BX);
  (* 160 *) MOV (M SI 40) (R CX);
  (* 161 *) MOV (R CX) (R DX);
  (* 162 *) XOR (R BX) (R DX);
  (* 163 *) AND (R AX) (R DX);
  (* 164 *) XOR (R DX) (R BX);
  (* 165 *) XOR (R DX) (R CX);
  (* 166 *) MOV (R BX) (M DI 40);
  (* 167 *) MOV (R CX) (M SI 40);
  (* 169 *) MOV (M DI 48) (R BX);
  (* 170 *) MOV (M SI 48) (R CX);
  (* 171 *) MOV (R CX) (R DX);
  (* 172 *) XOR (R BX) (R DX);
  (* 173 *) AND (R AX) (R DX);
  (* 174 *) XOR (R DX) (R BX);
  (* 175 *) XOR (R DX) (R CX);
  (* 176 *) MOV (R BX) (M DI 48);
  (* 177 *) MOV (R CX) (M SI 48);
  (* 179 *) MOV (M DI 56) (R BX);
  (* 180 *) MOV (M SI 56) (R CX);
  (* 181 *) MOV (R CX) (R DX);
  (* 182 *) XOR (R BX) (R DX);
  (* 183 *) AND (R AX) (R DX);
  (* 184 *) XOR (R DX) (R BX);
  (* 185 *) XOR (R DX) (R CX);
  (* 186 *) MOV (R BX) (M DI 56);
  (* 187 *) MOV (R CX) (M SI 56);
  (* 189 *) MOV (M DI 64) (R BX);
  (* 190 *) MOV (M SI 64) (R CX);
  (* 191 *) MOV (R CX) (R DX);
  (* 192 *) XOR (R BX) (R DX);
  (* 193 *) AND (R AX) (R DX);
  (* 194 *) XOR (R DX) (R BX);
  (* 195 *) XOR (R DX) (R CX);
  (* 196 *) MOV (R BX) (M DI 64);
  (* 197 *) MOV (R CX) (M SI 64);
  (* 199 *) MOV (M DI 72) (R BX);
  (* 200 *) MOV (M SI 72) (R CX);
  (* 201 *) MOV (R CX) (R DX);
  (* 202 *) XOR (R BX) (R DX);
  (* 203 *) AND (R AX) (R DX);
  (* 204 *) XOR (R DX) (R BX);
  (* 205 *) XOR (R DX) (R CX);
  (* 206 *) MOV (R BX) (M DI 72);
  (* 207 *) MOV (R CX) (M SI 72);
  (* 209 *) MOV (M DI 80) (R BX);
  (* 210 *) MOV (M SI 80) (R CX);
  (* 211 *) MOV (R CX) (R DX);
  (* 212 *) XOR (R BX) (R DX);
  (* 213 *) AND (R AX) (R DX);
  (* 214 *) XOR (R DX) (R BX);
  (* 215 *) XOR (R DX) (R CX);
  (* 216 *) MOV (R BX) (M DI 80);
  (* 217 *) MOV (R CX) (M SI 80);
  (* 219 *) MOV (M DI 88) (R BX);
  (* 220 *) MOV (M SI 88) (R CX);
  (* 221 *) MOV (R CX) (R DX);
  (* 222 *) XOR (R BX) (R DX);
  (* 223 *) AND (R AX) (R DX);
  (* 224 *) XOR (R DX) (R BX);
  (* 225 *) XOR (R DX) (R CX);
  (* 226 *) MOV (R BX) (M DI 88);
  (* 227 *) MOV (R CX) (M SI 88) ].

(* addP751, arith_amd64.s from line 231, frame of 0 bytes *)
Definition addP751Asm : list instr := [
  (* 233 *) MOV (A 0) (R DX);
  (* 234 *) MOV (A 8) (R DI);
  (* 235 *) MOV (A 16) (R SI);
  (* 237 *) MOV (M DI 0) (R R8);
  (* 238 *) MOV (M DI 8) (R R9);
  (* 239 *) MOV (M DI 16) (R R10);
  (* 240 *) MOV (M DI 24) (R R11);
  (* 241 *) MOV (M DI 32) (R R12);
  (* 242 *) MOV (M DI 40) (R R13);
  (* 243 *) MOV (M DI 48) (R R14);
  (* 244 *) MOV (M DI 56) (R R15);
  (* 245 *) MOV (M DI 64) (R CX);
  (* 246 *) ADD (M SI 0) (R R8);
  (* 247 *) ADC (M SI 8) (R R9);
  (* 248 *) ADC (M SI 16) (R R10);
  (* 249 *) ADC (M SI 24) (R R11);
  (* 250 *) ADC (M SI 32) (R R12);
  (* 251 *) ADC (M SI 40) (R R13);
  (* 252 *) ADC (M SI 48) (R R14);
  (* 253 *) ADC (M SI 56) (R R15);
  (* 254 *) ADC (M SI 64) (R CX);
  (* 255 *) MOV (M DI 72) (R AX);
  (* 256 *) ADC (M SI 72) (R AX);
  (* 257 *) MOV (R AX) (M DX 72);
  (* 258 *) MOV (M DI 80) (R AX);
  (* 259 *) ADC (M SI 80) (R AX);
  (* 260 *) MOV (R AX) (M DX 80);
  (* 261 *) MOV (M DI 88) (R AX);
  (* 262 *) ADC (M SI 88) (R AX);
  (* 263 *) MOV (R AX) (M DX 88);
  (* 265 *) MOV (Imm 18446744073709551614) (R AX);
  (* 266 *) SUB (R AX) (R R8);
  (* 267 *) MOV (Imm 18446744073709551615) (R AX);
  (* 268 *) SBB (R AX) (R R9);
  (* 269 *) SBB (R AX) (R R10);
  (* 270 *) SBB (R AX) (R R11);
  (* 271 *) SBB (R AX) (R R12);
  (* 272 *) MOV (Imm 15951749880146296831) (R AX);
  (* 273 *) SBB (R AX) (R R13);
  (* 274 *) MOV (Imm 14400590806948835665) (R AX);
  (* 275 *) SBB (R AX) (R R14);
  (* 276 *) MOV (Imm 13054587542499727597) (R AX);
  (* 277 *) SBB (R AX) (R R15);
  (* 278 *) MOV (Imm 1197166744483385581) (R AX);
  (* 279 *) SBB (R AX) (R CX);
  (* 280 *) MOV (R R8) (M DX 0);
  (* 281 *) MOV (R R9) (M DX 8);
  (* 282 *) MOV (R R10) (M DX 16);
  (* 283 *) MOV (R R11) (M DX 24);
  (* 284 *) MOV (R R12) (M DX 32);
  (* 285 *) MOV (R R13) (M DX 40);
  (* 286 *) MOV (R R14) (M DX 48);
  (* 287 *) MOV (R R15) (M DX 56);
  (* 288 *) MOV (R CX) (M DX 64);
  (* 289 *) MOV (M DX 72) (R R8);
  (* 290 *) MOV (M DX 80) (R R9);
  (* 291 *) MOV (M DX 88) (R R10);
  (* 292 *) MOV (Imm 776143096493944464) (R AX);
  (* 293 *) SBB (R AX) (R R8);
  (* 294 *) MOV (Imm 2028063762463176909) (R AX);
  (* 295 *) SBB (R AX) (R R9);
  (* 296 *) MOV (Imm 246065832128056) (R AX);
  (* 297 *) SBB (R AX) (R R10);
  (* 298 *) MOV (R R8) (M DX 72);
  (* 299 *) MOV (R R9) (M DX 80);
  (* 300 *) MOV (R R10) (M DX 88);
  (* 301 *) MOV (Imm 0) (R AX);
  (* 302 *) SBB (Imm 0) (R AX);
  (* 304 *) MOV (Imm 18446744073709551614) (R SI);
  (* 305 *) AND (R AX) (R SI);
  (* 306 *) MOV (Imm 18446744073709551615) (R R8);
  (* 307 *) AND (R AX) (R R8);
  (* 308 *) MOV (Imm 15951749880146296831) (R R9);
  (* 309 *) AND (R AX) (R R9);
  (* 310 *) MOV (Imm 14400590806948835665) (R R10);
  (* 311 *) AND (R AX) (R R10);
  (* 312 *) MOV (Imm 13054587542499727597) (R R11);
  (* 313 *) AND (R AX) (R R11);
  (* 314 *) MOV (Imm 1197166744483385581) (R R12);
  (* 315 *) AND (R AX) (R R12);
  (* 316 *) MOV (Imm 776143096493944464) (R R13);
  (* 317 *) AND (R AX) (R R13);
  (* 318 *) MOV (Imm 2028063762463176909) (R R14);
  (* 319 *) AND (R AX) (R R14);
  (* 320 *) MOV (Imm 246065832128056) (R R15);
  (* 321 *) AND (R AX) (R R15);
  (* 323 *) MOV (M DX 0) (R AX);
  (* 324 *) ADD (R SI) (R AX);
  (* 325 *) MOV (R AX) (M DX 0);
  (* 326 *) MOV (M DX 8) (R AX);
  (* 327 *) ADC (R R8) (R AX);
  (* 328 *) MOV (R AX) (M DX 8);
  (* 329 *) MOV (M DX 16) (R AX);
  (* 330 *) ADC (R R8) (R AX);
  (* 331 *) MOV (R AX) (M DX 16);
  (* 332 *) MOV (M DX 24) (R AX);
  (* 333 *) ADC (R R8) (R AX);
  (* 334 *) MOV (R AX) (M DX 24);
  (* 335 *) MOV (M DX 32) (R AX);
  (* 336 *) ADC (R R8) (R AX);
  (* 337 *) MOV (R AX) (M DX 32);
  (* 338 *) MOV (M DX 40) (R AX);
  (* 339 *) ADC (R R9) (R AX);
  (* 340 *) MOV (R AX) (M DX 40);
  (* 341 *) MOV (M DX 48) (R AX);
  (* 342 *) ADC (R R10) (R AX);
  (* 343 *) MOV (R AX) (M DX 48);
  (* 344 *) MOV (M DX 56) (R AX);
  (* 345 *) ADC (R R11) (R AX);
  (* 346 *) MOV (R AX) (M DX 56);
  (* 347 *) MOV (M DX 64) (R AX);
  (* 348 *) ADC (R R12) (R AX);
  (* 349 *) MOV (R AX) (M DX 64);
  (* 350 *) MOV (M DX 72) (R AX);
  (* 351 *) ADC (R R13) (R AX);
  (* 352 *) MOV (R AX) (M DX 72);
  (* 353 *) MOV (M DX 80) (R AX);
  (* 354 *) ADC (R R14) (R AX);
  (* 355 *) MOV (R AX) (M DX 80);
  (* 356 *) MOV (M DX 88) (R AX);
  (* 357 *) ADC (R R15) (R AX);
  (* 358 *) MOV (R AX) (M DX 88) ].

(* subP751, arith_amd64.s from line 362, frame of 0 bytes *)
Definition subP751Asm : list instr := [
  (* 364 *) MOV (A 0) (R DX);
  (* 365 *) MOV (A 8) (R DI);
  (* 366 *) MOV (A 16) (R SI);
  (* 368 *) MOV (M DI 0) (R R8);
  (* 369 *) MOV (M DI 8) (R R9);
  (* 370 *) MOV (M DI 16) (R R10);
  (* 371 *) MOV (M DI 24) (R R11);
  (* 372 *) MOV (M DI 32) (R R12);
  (* 373 *) MOV (M DI 40) (R R13);
  (* 374 *) MOV (M DI 48) (R R14);
  (* 375 *) MOV (M DI 56) (R R15);
  (* 376 *) MOV (M DI 64) (R CX);
  (* 377 *) SUB (M SI 0) (R R8);
  (* 378 *) SBB (M SI 8) (R R9);
  (* 379 *) SBB (M SI 16) (R R10);
  (* 380 *) SBB (M SI 24) (R R11);
  (* 381 *) SBB (M SI 32) (R R12);
  (* 382 *) SBB (M SI 40) (R R13);
  (* 383 *) SBB (M SI 48) (R R14);
  (* 384 *) SBB (M SI 56) (R R15);
  (* 385 *) SBB (M SI 64) (R CX);
  (* 386 *) MOV (R R8) (M DX 0);
  (* 387 *) MOV (R R9) (M DX 8);
  (* 388 *) MOV (R R10) (M DX 16);
  (* 389 *) MOV (R R11) (M DX 24);
  (* 390 *) MOV (R R12) (M DX 32);
  (* 391 *) MOV (R R13) (M DX 40);
  (* 392 *) MOV (R R14) (M DX 48);
  (* 393 *) MOV (R R15) (M DX 56);
  (* 394 *) MOV (R CX) (M DX 64);
  (* 395 *) MOV (M DI 72) (R AX);
  (* 396 *) SBB (M SI 72) (R AX);
  (* 397 *) MOV (R AX) (M DX 72);
  (* 398 *) MOV (M DI 80) (R AX);
  (* 399 *) SBB (M SI 80) (R AX);
  (* 400 *) MOV (R AX) (M DX 80);
  (* 401 *) MOV (M DI 88) (R AX);
  (* 402 *) SBB (M SI 88) (R AX);
  (* 403 *) MOV (R AX) (M DX 88);
  (* 404 *) MOV (Imm 0) (R AX);
  (* 405 *) SBB (Imm 0) (R AX);
  (* 407 *) MOV (Imm 18446744073709551614) (R SI);
  (* 408 *) AND (R AX) (R SI);
  (* 409 *) MOV (Imm 18446744073709551615) (R R8);
  (* 410 *) AND (R AX) (R R8);
  (* 411 *) MOV (Imm 15951749880146296831) (R R9);
  (* 412 *) AND (R AX) (R R9);
  (* 413 *) MOV (Imm 14400590806948835665) (R R10);
  (* 414 *) AND (R AX) (R R10);
  (* 415 *) MOV (Imm 13054587542499727597) (R R11);
  (* 416 *) AND (R AX) (R R11);
  (* 417 *) MOV (Imm 1197166744483385581) (R R12);
  (* 418 *) AND (R AX) (R R12);
  (* 419 *) MOV (Imm 776143096493944464) (R R13);
  (* 420 *) AND (R AX) (R R13);
  (* 421 *) MOV (Imm 2028063762463176909) (R R14);
  (* 422 *) AND (R AX) (R R14);
  (* 423 *) MOV (Imm 246065832128056) (R R15);
  (* 424 *) AND (R AX) (R R15);
  (* 426 *) MOV (M DX 0) (R AX);
  (* 427 *) ADD (R SI) (R AX);
  (* 428 *) MOV (R AX) (M DX 0);
  (* 429 *) MOV (M DX 8) (R AX);
  (* 430 *) ADC (R R8) (R AX);
  (* 431 *) MOV (R AX) (M DX 8);
  (* 432 *) MOV (M DX 16) (R AX);
  (* 433 *) ADC (R R8) (R AX);
  (* 434 *) MOV (R AX) (M DX 16);
  (* 435 *) MOV (M DX 24) (R AX);
  (* 436 *) ADC (R R8) (R AX);
  (* 437 *) MOV (R AX) (M DX 24);
  (* 438 *) MOV (M DX 32) (R AX);
  (* 439 *) ADC (R R8) (R AX);
  (* 440 *) MOV (R AX) (M DX 32);
  (* 441 *) MOV (M DX 40) (R AX);
  (* 442 *) ADC (R R9) (R AX);
  (* 443 *) MOV (R AX) (M DX 40);
  (* 444 *) MOV (M DX 48) (R AX);
  (* 445 *) ADC (R R10) (R AX);
  (* 446 *) MOV (R AX) (M DX 48);
  (* 447 *) MOV (M DX 56) (R AX);
  (* 448 *) ADC (R R11) (R AX);
  (* 449 *) MOV (R AX) (M DX 56);
  (* 450 *) MOV (M DX 64) (R AX);
  (* 451 *) ADC (R R12) (R AX);
  (* 452 *) MOV (R AX) (M DX 64);
  (* 453 *) MOV (M DX 72) (R AX);
  (* 454 *) ADC (R R13) (R AX);
  (* 455 *) MOV (R AX) (M DX 72);
  (* 456 *) MOV (M DX 80) (R AX);
  (* 457 *) ADC (R R14) (R AX);
  (* 458 *) MOV (R AX) (M DX 80);
  (* 459 *) MOV (M DX 88) (R AX);
  (* 460 *) ADC (R R15) (R AX);
  (* 461 *) MOV (R AX) (M DX 88) ].

(* mulP751, arith_amd64.s from line 465, frame of 96 bytes *)
Definition mulP751Asm : list instr := [
  (* 471 *) MOV (A 0) (R CX);
  (* 472 *) MOV (A 8) (R DI);
  (* 473 *) MOV (A 16) (R SI);
  (* 475 *) XOR (R AX) (R AX);
  (* 476 *) MOV (M DI 48) (R R8);
  (* 477 *) MOV (M DI 56) (R R9);
  (* 478 *) MOV (M DI 64) (R R10);
  (* 479 *) MOV (M DI 72) (R R11);
  (* 480 *) MOV (M DI 80) (R R12);
  (* 481 *) MOV (M DI 88) (R R13);
  (* 482 *) ADD (M DI 0) (R R8);
  (* 483 *) ADC (M DI 8) (R R9);
  (* 484 *) ADC (M DI 16) (R R10);
  (* 485 *) ADC (M DI 24) (R R11);
  (* 486 *) ADC (M DI 32) (R R12);
  (* 487 *) ADC (M DI 40) (R R13);
  (* 488 *) MOV (R R8) (M CX 0);
  (* 489 *) MOV (R R9) (M CX 8);
  (* 490 *) MOV (R R10) (M CX 16);
  (* 491 *) MOV (R R11) (M CX 24);
  (* 492 *) MOV (R R12) (M CX 32);
  (* 493 *) MOV (R R13) (M CX 40);
  (* 494 *) SBB (Imm 0) (R AX);
  (* 496 *) XOR (R DX) (R DX);
  (* 497 *) MOV (M SI 48) (R R8);
  (* 498 *) MOV (M SI 56) (R R9);
  (* 499 *) MOV (M SI 64) (R R10);
  (* 500 *) MOV (M SI 72) (R R11);
  (* 501 *) MOV (M SI 80) (R R12);
  (* 502 *) MOV (M SI 88) (R R13);
  (* 503 *) ADD (M SI 0) (R R8);
  (* 504 *) ADC (M SI 8) (R R9);
  (* 505 *) ADC (M SI 16) (R R10);
  (* 506 *) ADC (M SI 24) (R R11);
  (* 507 *) ADC (M SI 32) (R R12);
  (* 508 *) ADC (M SI 40) (R R13);
  (* 509 *) MOV (R R8) (M CX 48);
  (* 510 *) MOV (R R9) (M CX 56);
  (* 511 *) MOV (R R10) (M CX 64);
  (* 512 *) MOV (R R11) (M CX 72);
  (* 513 *) MOV (R R12) (M CX 80);
  (* 514 *) MOV (R R13) (M CX 88);
  (* 515 *) SBB (Imm 0) (R DX);
  (* 516 *) MOV (R AX) (M SP 80);
  (* 517 *) MOV (R DX) (M SP 88);
  (* 521 *) MOV (M CX 0) (R R11);
  (* 522 *) MOV (R R8) (R AX);
  (* 523 *) MUL (R R11);
  (* 524 *) MOV (R AX) (M SP 0);
  (* 525 *) MOV (R DX) (R R14);
  (* 527 *) XOR (R R15) (R R15);
  (* 528 *) MOV (R R9) (R AX);
  (* 529 *) MUL (R R11);
  (* 530 *) XOR (R R9) (R R9);
  (* 531 *) ADD (R AX) (R R14);
  (* 532 *) ADC (R DX) (R R9);
  (* 534 *) MOV (M CX 8) (R R12);
  (* 535 *) MOV (R R8) (R AX);
  (* 536 *) MUL (R R12);
  (* 537 *) ADD (R AX) (R R14);
  (* 538 *) MOV (R R14) (M SP 8);
  (* 539 *) ADC (R DX) (R R9);
  (* 540 *) ADC (Imm 0) (R R15);
  (* 542 *) XOR (R R8) (R R8);
  (* 543 *) MOV (R R10) (R AX);
  (* 544 *) MUL (R R11);
  (* 545 *) ADD (R AX) (R R9);
  (* 546 *) MOV (M CX 48) (R R13);
  (* 547 *) ADC (R DX) (R R15);
  (* 548 *) ADC (Imm 0) (R R8);
  (* 550 *) MOV (M CX 16) (R AX);
  (* 551 *) MUL (R R13);
  (* 552 *) ADD (R AX) (R R9);
  (* 553 *) ADC (R DX) (R R15);
  (* 554 *) MOV (M CX 56) (R AX);
  (* 555 *) ADC (Imm 0) (R R8);
  (* 557 *) MUL (R R12);
  (* 558 *) ADD (R AX) (R R9);
  (* 559 *) MOV (R R9) (M SP 16);
  (* 560 *) ADC (R DX) (R R15);
  (* 561 *) ADC (Imm 0) (R R8);
  (* 563 *) XOR (R R9) (R R9);
  (* 564 *) MOV (M CX 72) (R AX);
  (* 565 *) MUL (R R11);
  (* 566 *) ADD (R AX) (R R15);
  (* 567 *) ADC (R DX) (R R8);
  (* 568 *) ADC (Imm 0) (R R9);
  (* 570 *) MOV (M CX 24) (R AX);
  (* 571 *) MUL (R R13);
  (* 572 *) ADD (R AX) (R R15);
  (* 573 *) ADC (R DX) (R R8);
  (* 574 *) ADC (Imm 0) (R R9);
  (* 576 *) MOV (R R10) (R AX);
  (* 577 *) MUL (R R12);
  (* 578 *) ADD (R AX) (R R15);
  (* 579 *) ADC (R DX) (R R8);
  (* 580 *) ADC (Imm 0) (R R9);
  (* 582 *) MOV (M CX 16) (R R14);
  (* 583 *) MOV (M CX 56) (R AX);
  (* 584 *) MUL (R R14);
  (* 585 *) ADD (R AX) (R R15);
  (* 586 *) MOV (R R15) (M SP 24);
  (* 587 *) ADC (R DX) (R R8);
  (* 588 *) ADC (Imm 0) (R R9);
  (* 590 *) XOR (R R10) (R R10);
  (* 591 *) MOV (M CX 80) (R AX);
  (* 592 *) MUL (R R11);
  (* 593 *) ADD (R AX) (R R8);
  (* 594 *) ADC (R DX) (R R9);
  (* 595 *) ADC (Imm 0) (R R10);
  (* 597 *) MOV (M CX 64) (R AX);
  (* 598 *) MUL (R R14);
  (* 599 *) ADD (R AX) (R R8);
  (* 600 *) ADC (R DX) (R R9);
  (* 601 *) ADC (Imm 0) (R R10);
  (* 603 *) MOV (M CX 48) (R R15);
  (* 604 *) MOV (M CX 32) (R AX);
  (* 605 *) MUL (R R15);
  (* 606 *) ADD (R AX) (R R8);
  (* 607 *) ADC (R DX) (R R9);
  (* 608 *) ADC (Imm 0) (R R10);
  (* 610 *) MOV (M CX 72) (R AX);
  (* 611 *) MUL (R R12);
  (* 612 *) ADD (R AX) (R R8);
  (* 613 *) ADC (R DX) (R R9);
  (* 614 *) ADC (Imm 0) (R R10);
  (* 616 *) MOV (M CX 24) (R R13);
  (* 617 *) MOV (M CX 56) (R AX);
  (* 618 *) MUL (R R13);
  (* 619 *) ADD (R AX) (R R8);
  (* 620 *) MOV (R R8) (M SP 32);
  (* 621 *) ADC (R DX) (R R9);
  (* 622 *) ADC (Imm 0) (R R10);
  (* 624 *) XOR (R R8) (R R8);
  (* 625 *) MOV (M CX 88) (R AX);
  (* 626 *) MUL (R R11);
  (* 627 *) ADD (R AX) (R R9);
  (* 628 *) ADC (R DX) (R R10);
  (* 629 *) ADC (Imm 0) (R R8);
  (* 631 *) MOV (M CX 64) (R AX);
  (* 632 *) MUL (R R13);
  (* 633 *) ADD (R AX) (R R9);
  (* 634 *) ADC (R DX) (R R10);
  (* 635 *) ADC (Imm 0) (R R8);
  (* 637 *) MOV (M CX 72) (R AX);
  (* 638 *) MUL (R R14);
  (* 639 *) ADD (R AX) (R R9);
  (* 640 *) ADC (R DX) (R R10);
  (* 641 *) ADC (Imm 0) (R R8);
  (* 643 *) MOV (M CX 40) (R AX);
  (* 644 *) MUL (R R15);
  (* 645 *) ADD (R AX) (R R9);
  (* 646 *) ADC (R DX) (R R10);
  (* 647 *) ADC (Imm 0) (R R8);
  (* 649 *) MOV (M CX 80) (R AX);
  (* 650 *) MUL (R R12);
  (* 651 *) ADD (R AX) (R R9);
  (* 652 *) ADC (R DX) (R R10);
  (* 653 *) ADC (Imm 0) (R R8);
  (* 655 *) MOV (M CX 32) (R R15);
  (* 656 *) MOV (M CX 56) (R AX);
  (* 657 *) MUL (R R15);
  (* 658 *) ADD (R AX) (R R9);
  (* 659 *) MOV (R R9) (M SP 40);
  (* 660 *) ADC (R DX) (R R10);
  (* 661 *) ADC (Imm 0) (R R8);
  (* 663 *) XOR (R R9) (R R9);
  (* 664 *) MOV (M CX 64) (R AX);
  (* 665 *) MUL (R R15);
  (* 666 *) ADD (R AX) (R R10);
  (* 667 *) ADC (R DX) (R R8);
  (* 668 *) ADC (Imm 0) (R R9);
  (* 670 *) MOV (M CX 88) (R AX);
  (* 671 *) MUL (R R12);
  (* 672 *) ADD (R AX) (R R10);
  (* 673 *) ADC (R DX) (R R8);
  (* 674 *) ADC (Imm 0) (R R9);
  (* 676 *) MOV (M CX 80) (R AX);
  (* 677 *) MUL (R R14);
  (* 678 *) ADD (R AX) (R R10);
  (* 679 *) ADC (R DX) (R R8);
  (* 680 *) ADC (Imm 0) (R R9);
  (* 682 *) MOV (M CX 40) (R R11);
  (* 683 *) MOV (M CX 56) (R AX);
  (* 684 *) MUL (R R11);
  (* 685 *) ADD (R AX) (R R10);
  (* 686 *) ADC (R DX) (R R8);
  (* 687 *) ADC (Imm 0) (R R9);
  (* 689 *) MOV (M CX 72) (R AX);
  (* 690 *) MUL (R R13);
  (* 691 *) ADD (R AX) (R R10);
  (* 692 *) MOV (R R10) (M SP 48);
  (* 693 *) ADC (R DX) (R R8);
  (* 694 *) ADC (Imm 0) (R R9);
  (* 696 *) XOR (R R10) (R R10);
  (* 697 *) MOV (M CX 88) (R AX);
  (* 698 *) MUL (R R14);
  (* 699 *) ADD (R AX) (R R8);
  (* 700 *) ADC (R DX) (R R9);
  (* 701 *) ADC (Imm 0) (R R10);
  (* 703 *) MOV (M CX 64) (R AX);
  (* 704 *) MUL (R R11);
  (* 705 *) ADD (R AX) (R R8);
  (* 706 *) ADC (R DX) (R R9);
  (* 707 *) ADC (Imm 0) (R R10);
  (* 709 *) MOV (M CX 80) (R AX);
  (* 710 *) MUL (R R13);
  (* 711 *) ADD (R AX) (R R8);
  (* 712 *) ADC (R DX) (R R9);
  (* 713 *) ADC (Imm 0) (R R10);
  (* 715 *) MOV (M CX 72) (R AX);
  (* 716 *) MUL (R R15);
  (* 717 *) ADD (R AX) (R R8);
  (* 718 *) MOV (R R8) (M SP 56);
  (* 719 *) ADC (R DX) (R R9);
  (* 720 *) ADC (Imm 0) (R R10);
  (* 722 *) XOR (R R8) (R R8);
  (* 723 *) MOV (M CX 72) (R AX);
  (* 724 *) MUL (R R11);
  (* 725 *) ADD (R AX) (R R9);
  (* 726 *) ADC (R DX) (R R10);
  (* 727 *) ADC (Imm 0) (R R8);
  (* 729 *) MOV (M CX 80) (R AX);
  (* 730 *) MUL (R R15);
  (* 731 *) ADD (R AX) (R R9);
  (* 732 *) ADC (R DX) (R R10);
  (* 733 *) ADC (Imm 0) (R R8);
  (* 735 *) MOV (M CX 88) (R AX);
  (* 736 *) MUL (R R13);
  (* 737 *) ADD (R AX) (R R9);
  (* 738 *) MOV (R R9) (M SP 64);
  (* 739 *) ADC (R DX) (R R10);
  (* 740 *) ADC (Imm 0) (R R8);
  (* 742 *) XOR (R R9) (R R9);
  (* 743 *) MOV (M CX 88) (R AX);
  (* 744 *) MUL (R R15);
  (* 745 *) ADD (R AX) (R R10);
  (* 746 *) ADC (R DX) (R R8);
  (* 747 *) ADC (Imm 0) (R R9);
  (* 749 *) MOV (M CX 80) (R AX);
  (* 750 *) MUL (R R11);
  (* 751 *) ADD (R AX) (R R10);
  (* 752 *) ADC (R DX) (R R8);
  (* 753 *) ADC (Imm 0) (R R9);
  (* 755 *) MOV (M CX 88) (R AX);
  (* 756 *) MUL (R R11);
  (* 757 *) ADD (R AX) (R R8);
  (* 758 *) ADC (R DX) (R R9);
  (* 760 *) MOV (M SP 88) (R AX);
  (* 761 *) MOV (M CX 0) (R DX);
  (* 762 *) AND (R AX) (R R12);
  (* 763 *) AND (R AX) (R R14);
  (* 764 *) AND (R AX) (R DX);
  (* 765 *) AND (R AX) (R R13);
  (* 766 *) AND (R AX) (R R15);
  (* 767 *) AND (R AX) (R R11);
  (* 768 *) MOV (M SP 48) (R AX);
  (* 769 *) ADD (R AX) (R DX);
  (* 770 *) MOV (M SP 56) (R AX);
  (* 771 *) ADC (R AX) (R R12);
  (* 772 *) MOV (M SP 64) (R AX);
  (* 773 *) ADC (R AX) (R R14);
  (* 774 *) ADC (R R10) (R R13);
  (* 775 *) ADC (R R8) (R R15);
  (* 776 *) ADC (R R9) (R R11);
  (* 777 *) MOV (M SP 80) (R AX);
  (* 778 *) MOV (R DX) (M SP 48);
  (* 779 *) MOV (R R12) (M SP 56);
  (* 780 *) MOV (R R14) (M SP 64);
  (* 781 *) MOV (R R13) (M SP 72);
  (* 782 *) MOV (R R15) (M SP 80);
  (* 783 *) MOV (R R11) (M SP 88);
  (* 785 *) MOV (M CX 48) (R R8);
  (* 786 *) MOV (M CX 56) (R R9);
  (* 787 *) MOV (M CX 64) (R R10);
  (* 788 *) MOV (M CX 72) (R R11);
  (* 789 *) MOV (M CX 80) (R R12);
  (* 790 *) MOV (M CX 88) (R R13);
  (* 791 *) AND (R AX) (R R8);
  (* 792 *) AND (R AX) (R R9);
  (* 793 *) AND (R AX) (R R10);
  (* 794 *) AND (R AX) (R R11);
  (* 795 *) AND (R AX) (R R12);
  (* 796 *) AND (R AX) (R R13);
  (* 797 *) MOV (M SP 48) (R AX);
  (* 798 *) ADD (R AX) (R R8);
  (* 799 *) MOV (M SP 56) (R AX);
  (* 800 *) ADC (R AX) (R R9);
  (* 801 *) MOV (M SP 64) (R AX);
  (* 802 *) ADC (R AX) (R R10);
  (* 803 *) MOV (M SP 72) (R AX);
  (* 804 *) ADC (R AX) (R R11);
  (* 805 *) MOV (M SP 80) (R AX);
  (* 806 *) ADC (R AX) (R R12);
  (* 807 *) MOV (M SP 88) (R AX);
  (* 808 *) ADC (R AX) (R R13);
  (* 809 *) MOV (R R8) (M SP 48);
  (* 810 *) MOV (R R9) (M SP 56);
  (* 811 *) MOV (R R11) (M SP 72);
  (* 814 *) MOV (M DI 0) (R R11);
  (* 815 *) MOV (M SI 0) (R AX);
  (* 816 *) MUL (R R11);
  (* 817 *) XOR (R R9) (R R9);
  (* 818 *) MOV (R AX) (M CX 0);
  (* 819 *) MOV (R R10) (M SP 64);
  (* 820 *) MOV (R DX) (R R8);
  (* 822 *) MOV (M SI 8) (R AX);
  (* 823 *) MUL (R R11);
  (* 824 *) XOR (R R10) (R R10);
  (* 825 *) ADD (R AX) (R R8);
  (* 826 *) MOV (R R12) (M SP 80);
  (* 827 *) ADC (R DX) (R R9);
  (* 829 *) MOV (M DI 8) (R R12);
  (* 830 *) MOV (M SI 0) (R AX);
  (* 831 *) MUL (R R12);
  (* 832 *) ADD (R AX) (R R8);
  (* 833 *) MOV (R R8) (M CX 8);
  (* 834 *) ADC (R DX) (R R9);
  (* 835 *) MOV (R R13) (M SP 88);
  (* 836 *) ADC (Imm 0) (R R10);
  (* 838 *) XOR (R R8) (R R8);
  (* 839 *) MOV (M SI 16) (R AX);
  (* 840 *) MUL (R R11);
  (* 841 *) ADD (R AX) (R R9);
  (* 842 *) ADC (R DX) (R R10);
  (* 843 *) ADC (Imm 0) (R R8);
  (* 845 *) MOV (M SI 0) (R R13);
  (* 846 *) MOV (M DI 16) (R AX);
  (* 847 *) MUL (R R13);
  (* 848 *) ADD (R AX) (R R9);
  (* 849 *) ADC (R DX) (R R10);
  (* 850 *) ADC (Imm 0) (R R8);
  (* 852 *) MOV (M SI 8) (R AX);
  (* 853 *) MUL (R R12);
  (* 854 *) ADD (R AX) (R R9);
  (* 855 *) MOV (R R9) (M CX 16);
  (* 856 *) ADC (R DX) (R R10);
  (* 857 *) ADC (Imm 0) (R R8);
  (* 859 *) XOR (R R9) (R R9);
  (* 860 *) MOV (M SI 24) (R AX);
  (* 861 *) MUL (R R11);
  (* 862 *) ADD (R AX) (R R10);
  (* 863 *) ADC (R DX) (R R8);
  (* 864 *) ADC (Imm 0) (R R9);
  (* 866 *) MOV (M DI 24) (R AX);
  (* 867 *) MUL (R R13);
  (* 868 *) ADD (R AX) (R R10);
  (* 869 *) ADC (R DX) (R R8);
  (* 870 *) ADC (Imm 0) (R R9);
  (* 872 *) MOV (M SI 16) (R AX);
  (* 873 *) MUL (R R12);
  (* 874 *) ADD (R AX) (R R10);
  (* 875 *) ADC (R DX) (R R8);
  (* 876 *) ADC (Imm 0) (R R9);
  (* 878 *) MOV (M DI 16) (R R14);
  (* 879 *) MOV (M SI 8) (R AX);
  (* 880 *) MUL (R R14);
  (* 881 *) ADD (R AX) (R R10);
  (* 882 *) MOV (R R10) (M CX 24);
  (* 883 *) ADC (R DX) (R R8);
  (* 884 *) ADC (Imm 0) (R R9);
  (* 886 *) XOR (R R10) (R R10);
  (* 887 *) MOV (M SI 32) (R AX);
  (* 888 *) MUL (R R11);
  (* 889 *) ADD (R AX) (R R8);
  (* 890 *) ADC (R DX) (R R9);
  (* 891 *) ADC (Imm 0) (R R10);
  (* 893 *) MOV (M SI 16) (R AX);
  (* 894 *) MUL (R R14);
  (* 895 *) ADD (R AX) (R R8);
  (* 896 *) ADC (R DX) (R R9);
  (* 897 *) ADC (Imm 0) (R R10);
  (* 899 *) MOV (M DI 32) (R AX);
  (* 900 *) MUL (R R13);
  (* 901 *) ADD (R AX) (R R8);
  (* 902 *) ADC (R DX) (R R9);
  (* 903 *) ADC (Imm 0) (R R10);
  (* 905 *) MOV (M SI 24) (R AX);
  (* 906 *) MUL (R R12);
  (* 907 *) ADD (R AX) (R R8);
  (* 908 *) ADC (R DX) (R R9);
  (* 909 *) ADC (Imm 0) (R R10);
  (* 911 *) MOV (M DI 24) (R R13);
  (* 912 *) MOV (M SI 8) (R AX);
  (* 913 *) MUL (R R13);
  (* 914 *) ADD (R AX) (R R8);
  (* 915 *) MOV (R R8) (M CX 32);
  (* 916 *) ADC (R DX) (R R9);
  (* 917 *) ADC (Imm 0) (R R10);
  (* 919 *) XOR (R R8) (R R8);
  (* 920 *) MOV (M SI 40) (R AX);
  (* 921 *) MUL (R R11);
  (* 922 *) ADD (R AX) (R R9);
  (* 923 *) ADC (R DX) (R R10);
  (* 924 *) ADC (Imm 0) (R R8);
  (* 926 *) MOV (M SI 16) (R AX);
  (* 927 *) MUL (R R13);
  (* 928 *) ADD (R AX) (R R9);
  (* 929 *) ADC (R DX) (R R10);
  (* 930 *) ADC (Imm 0) (R R8);
  (* 932 *) MOV (M SI 24) (R AX);
  (* 933 *) MUL (R R14);
  (* 934 *) ADD (R AX) (R R9);
  (* 935 *) ADC (R DX) (R R10);
  (* 936 *) ADC (Imm 0) (R R8);
  (* 938 *) MOV (M DI 40) (R R11);
  (* 939 *) MOV (M SI 0) (R AX);
  (* 940 *) MUL (R R11);
  (* 941 *) ADD (R AX) (R R9);
  (* 942 *) ADC (R DX) (R R10);
  (* 943 *) ADC (Imm 0) (R R8);
  (* 945 *) MOV (M SI 32) (R AX);
  (* 946 *) MUL (R R12);
  (* 947 *) ADD (R AX) (R R9);
  (* 948 *) ADC (R DX) (R R10);
  (* 949 *) ADC (Imm 0) (R R8);
  (* 951 *) MOV (M DI 32) (R R15);
  (* 952 *) MOV (M SI 8) (R AX);
  (* 953 *) MUL (R R15);
  (* 954 *) ADD (R AX) (R R9);
  (* 955 *) MOV (R R9) (M CX 40);
  (* 956 *) ADC (R DX) (R R10);
  (* 957 *) ADC (Imm 0) (R R8);
  (* 959 *) XOR (R R9) (R R9);
  (* 960 *) MOV (M SI 16) (R AX);
  (* 961 *) MUL (R R15);
  (* 962 *) ADD (R AX) (R R10);
  (* 963 *) ADC (R DX) (R R8);
  (* 964 *) ADC (Imm 0) (R R9);
  (* 966 *) MOV (M SI 40) (R AX);
  (* 967 *) MUL (R R12);
  (* 968 *) ADD (R AX) (R R10);
  (* 969 *) ADC (R DX) (R R8);
  (* 970 *) ADC (Imm 0) (R R9);
  (* 972 *) MOV (M SI 32) (R AX);
  (* 973 *) MUL (R R14);
  (* 974 *) ADD (R AX) (R R10);
  (* 975 *) ADC (R DX) (R R8);
  (* 976 *) ADC (Imm 0) (R R9);
  (* 978 *) MOV (M SI 8) (R AX);
  (* 979 *) MUL (R R11);
  (* 980 *) ADD (R AX) (R R10);
  (* 981 *) ADC (R DX) (R R8);
  (* 982 *) ADC (Imm 0) (R R9);
  (* 984 *) MOV (M SI 24) (R AX);
  (* 985 *) MUL (R R13);
  (* 986 *) ADD (R AX) (R R10);
  (* 987 *) MOV (R R10) (M CX 48);
  (* 988 *) ADC (R DX) (R R8);
  (* 989 *) ADC (Imm 0) (R R9);
  (* 991 *) XOR (R R10) (R R10);
  (* 992 *) MOV (M SI 40) (R AX);
  (* 993 *) MUL (R R14);
  (* 994 *) ADD (R AX) (R R8);
  (* 995 *) ADC (R DX) (R R9);
  (* 996 *) ADC (Imm 0) (R R10);
  (* 998 *) MOV (M SI 16) (R AX);
  (* 999 *) MUL (R R11);
  (* 1000 *) ADD (R AX) (R R8);
  (* 1001 *) ADC (R DX) (R R9);
  (* 1002 *) ADC (Imm 0) (R R10);
  (* 1004 *) MOV (M SI 32) (R AX);
  (* 1005 *) MUL (R R13);
  (* 1006 *) ADD (R AX) (R R8);
  (* 1007 *) ADC (R DX) (R R9);
  (* 1008 *) ADC (Imm 0) (R R10);
  (* 1010 *) MOV (M SI 24) (R AX);
  (* 1011 *) MUL (R R15);
  (* 1012 *) ADD (R AX) (R R8);
  (* 1013 *) MOV (R R8) (M CX 56);
  (* 1014 *) ADC (R DX) (R R9);
  (* 1015 *) ADC (Imm 0) (R R10);
  (* 1017 *) XOR (R R8) (R R8);
  (* 1018 *) MOV (M SI 24) (R AX);
  (* 1019 *) MUL (R R11);
  (* 1020 *) ADD (R AX) (R R9);
  (* 1021 *) ADC (R DX) (R R10);
  (* 1022 *) ADC (Imm 0) (R R8);
  (* 1024 *) MOV (M SI 32) (R AX);
  (* 1025 *) MUL (R R15);
  (* 1026 *) ADD (R AX) (R R9);
  (* 1027 *) ADC (R DX) (R R10);
  (* 1028 *) ADC (Imm 0) (R R8);
  (* 1030 *) MOV (M SI 40) (R AX);
  (* 1031 *) MUL (R R13);
  (* 1032 *) ADD (R AX) (R R9);
  (* 1033 *) MOV (R R9) (M CX 64);
  (* 1034 *) ADC (R DX) (R R10);
  (* 1035 *) ADC (Imm 0) (R R8);
  (* 1037 *) XOR (R R9) (R R9);
  (* 1038 *) MOV (M SI 40) (R AX);
  (* 1039 *) MUL (R R15);
  (* 1040 *) ADD (R AX) (R R10);
  (* 1041 *) ADC (R DX) (R R8);
  (* 1042 *) ADC (Imm 0) (R R9);
  (* 1044 *) MOV (M SI 32) (R AX);
  (* 1045 *) MUL (R R11);
  (* 1046 *) ADD (R AX) (R R10);
  (* 1047 *) MOV (R R10) (M CX 72);
  (* 1048 *) ADC (R DX) (R R8);
  (* 1049 *) ADC (Imm 0) (R R9);
  (* 1051 *) MOV (M SI 40) (R AX);
  (* 1052 *) MUL (R R11);
  (* 1053 *) ADD (R AX) (R R8);
  (* 1054 *) MOV (R R8) (M CX 80);
  (* 1055 *) ADC (R DX) (R R9);
  (* 1056 *) MOV (R R9) (M CX 88);
  (* 1059 *) MOV (M DI 48) (R R11);
  (* 1060 *) MOV (M SI 48) (R AX);
  (* 1061 *) MUL (R R11);
  (* 1062 *) XOR (R R9) (R R9);
  (* 1063 *) MOV (R AX) (M CX 96);
  (* 1064 *) MOV (R DX) (R R8);
  (* 1066 *) MOV (M SI 56) (R AX);
  (* 1067 *) MUL (R R11);
  (* 1068 *) XOR (R R10) (R R10);
  (* 1069 *) ADD (R AX) (R R8);
  (* 1070 *) ADC (R DX) (R R9);
  (* 1072 *) MOV (M DI 56) (R R12);
  (* 1073 *) MOV (M SI 48) (R AX);
  (* 1074 *) MUL (R R12);
  (* 1075 *) ADD (R AX) (R R8);
  (* 1076 *) MOV (R R8) (M CX 104);
  (* 1077 *) ADC (R DX) (R R9);
  (* 1078 *) ADC (Imm 0) (R R10);
  (* 1080 *) XOR (R R8) (R R8);
  (* 1081 *) MOV (M SI 64) (R AX);
  (* 1082 *) MUL (R R11);
  (* 1083 *) ADD (R AX) (R R9);
  (* 1084 *) ADC (R DX) (R R10);
  (* 1085 *) ADC (Imm 0) (R R8);
  (* 1087 *) MOV (M SI 48) (R R13);
  (* 1088 *) MOV (M DI 64) (R AX);
  (* 1089 *) MUL (R R13);
  (* 1090 *) ADD (R AX) (R R9);
  (* 1091 *) ADC (R DX) (R R10);
  (* 1092 *) ADC (Imm 0) (R R8);
  (* 1094 *) MOV (M SI 56) (R AX);
  (* 1095 *) MUL (R R12);
  (* 1096 *) ADD (R AX) (R R9);
  (* 1097 *) MOV (R R9) (M CX 112);
  (* 1098 *) ADC (R DX) (R R10);
  (* 1099 *) ADC (Imm 0) (R R8);
  (* 1101 *) XOR (R R9) (R R9);
  (* 1102 *) MOV (M SI 72) (R AX);
  (* 1103 *) MUL (R R11);
  (* 1104 *) ADD (R AX) (R R10);
  (* 1105 *) ADC (R DX) (R R8);
  (* 1106 *) ADC (Imm 0) (R R9);
  (* 1108 *) MOV (M DI 72) (R AX);
  (* 1109 *) MUL (R R13);
  (* 1110 *) ADD (R AX) (R R10);
  (* 1111 *) ADC (R DX) (R R8);
  (* 1112 *) ADC (Imm 0) (R R9);
  (* 1114 *) MOV (M SI 64) (R AX);
  (* 1115 *) MUL (R R12);
  (* 1116 *) ADD (R AX) (R R10);
  (* 1117 *) ADC (R DX) (R R8);
  (* 1118 *) ADC (Imm 0) (R R9);
  (* 1120 *) MOV (M DI 64) (R R14);
  (* 1121 *) MOV (M SI 56) (R AX);
  (* 1122 *) MUL (R R14);
  (* 1123 *) ADD (R AX) (R R10);
  (* 1124 *) MOV (R R10) (M CX 120);
  (* 1125 *) ADC (R DX) (R R8);
  (* 1126 *) ADC (Imm 0) (R R9);
  (* 1128 *) XOR (R R10) (R R10);
  (* 1129 *) MOV (M SI 80) (R AX);
  (* 1130 *) MUL (R R11);
  (* 1131 *) ADD (R AX) (R R8);
  (* 1132 *) ADC (R DX) (R R9);
  (* 1133 *) ADC (Imm 0) (R R10);
  (* 1135 *) MOV (M SI 64) (R AX);
  (* 1136 *) MUL (R R14);
  (* 1137 *) ADD (R AX) (R R8);
  (* 1138 *) ADC (R DX) (R R9);
  (* 1139 *) ADC (Imm 0) (R R10);
  (* 1141 *) MOV (M DI 80) (R R15);
  (* 1142 *) MOV (R R13) (R AX);
  (* 1143 *) MUL (R R15);
  (* 1144 *) ADD (R AX) (R R8);
  (* 1145 *) ADC (R DX) (R R9);
  (* 1146 *) ADC (Imm 0) (R R10);
  (* 1148 *) MOV (M SI 72) (R AX);
  (* 1149 *) MUL (R R12);
  (* 1150 *) ADD (R AX) (R R8);
  (* 1151 *) ADC (R DX) (R R9);
  (* 1152 *) ADC (Imm 0) (R R10);
  (* 1154 *) MOV (M DI 72) (R R13);
  (* 1155 *) MOV (M SI 56) (R AX);
  (* 1156 *) MUL (R R13);
  (* 1157 *) ADD (R AX) (R R8);
  (* 1158 *) MOV (R R8) (M CX 128);
  (* 1159 *) ADC (R DX) (R R9);
  (* 1160 *) ADC (Imm 0) (R R10);
  (* 1162 *) XOR (R R8) (R R8);
  (* 1163 *) MOV (M SI 88) (R AX);
  (* 1164 *) MUL (R R11);
  (* 1165 *) ADD (R AX) (R R9);
  (* 1166 *) ADC (R DX) (R R10);
  (* 1167 *) ADC (Imm 0) (R R8);
  (* 1169 *) MOV (M SI 64) (R AX);
  (* 1170 *) MUL (R R13);
  (* 1171 *) ADD (R AX) (R R9);
  (* 1172 *) ADC (R DX) (R R10);
  (* 1173 *) ADC (Imm 0) (R R8);
  (* 1175 *) MOV (M SI 72) (R AX);
  (* 1176 *) MUL (R R14);
  (* 1177 *) ADD (R AX) (R R9);
  (* 1178 *) ADC (R DX) (R R10);
  (* 1179 *) ADC (Imm 0) (R R8);
  (* 1181 *) MOV (M DI 88) (R R11);
  (* 1182 *) MOV (M SI 48) (R AX);
  (* 1183 *) MUL (R R11);
  (* 1184 *) ADD (R AX) (R R9);
  (* 1185 *) ADC (R DX) (R R10);
  (* 1186 *) ADC (Imm 0) (R R8);
  (* 1188 *) MOV (M SI 80) (R AX);
  (* 1189 *) MUL (R R12);
  (* 1190 *) ADD (R AX) (R R9);
  (* 1191 *) ADC (R DX) (R R10);
  (* 1192 *) ADC (Imm 0) (R R8);
  (* 1194 *) MOV (M SI 56) (R AX);
  (* 1195 *) MUL (R R15);
  (* 1196 *) ADD (R AX) (R R9);
  (* 1197 *) MOV (R R9) (M CX 136);
  (* 1198 *) ADC (R DX) (R R10);
  (* 1199 *) ADC (Imm 0) (R R8);
  (* 1201 *) XOR (R R9) (R R9);
  (* 1202 *) MOV (M SI 64) (R AX);
  (* 1203 *) MUL (R R15);
  (* 1204 *) ADD (R AX) (R R10);
  (* 1205 *) ADC (R DX) (R R8);
  (* 1206 *) ADC (Imm 0) (R R9);
  (* 1208 *) MOV (M SI 88) (R AX);
  (* 1209 *) MUL (R R12);
  (* 1210 *) ADD (R AX) (R R10);
  (* 1211 *) ADC (R DX) (R R8);
  (* 1212 *) ADC (Imm 0) (R R9);
  (* 1214 *) MOV (M SI 80) (R AX);
  (* 1215 *) MUL (R R14);
  (* 1216 *) ADD (R AX) (R R10);
  (* 1217 *) ADC (R DX) (R R8);
  (* 1218 *) ADC (Imm 0) (R R9);
  (* 1220 *) MOV (M SI 56) (R AX);
  (* 1221 *) MUL (R R11);
  (* 1222 *) ADD (R AX) (R R10);
  (* 1223 *) ADC (R DX) (R R8);
  (* 1224 *) ADC (Imm 0) (R R9);
  (* 1226 *) MOV (M SI 72) (R AX);
  (* 1227 *) MUL (R R13);
  (* 1228 *) ADD (R AX) (R R10);
  (* 1229 *) MOV (R R10) (M CX 144);
  (* 1230 *) ADC (R DX) (R R8);
  (* 1231 *) ADC (Imm 0) (R R9);
  (* 1233 *) XOR (R R10) (R R10);
  (* 1234 *) MOV (M SI 88) (R AX);
  (* 1235 *) MUL (R R14);
  (* 1236 *) ADD (R AX) (R R8);
  (* 1237 *) ADC (R DX) (R R9);
  (* 1238 *) ADC (Imm 0) (R R10);
  (* 1240 *) MOV (M SI 64) (R AX);
  (* 1241 *) MUL (R R11);
  (* 1242 *) ADD (R AX) (R R8);
  (* 1243 *) ADC (R DX) (R R9);
  (* 1244 *) ADC (Imm 0) (R R10);
  (* 1246 *) MOV (M SI 80) (R AX);
  (* 1247 *) MUL (R R13);
  (* 1248 *) ADD (R AX) (R R8);
  (* 1249 *) ADC (R DX) (R R9);
  (* 1250 *) ADC (Imm 0) (R R10);
  (* 1252 *) MOV (M SI 72) (R AX);
  (* 1253 *) MUL (R R15);
  (* 1254 *) ADD (R AX) (R R8);
  (* 1255 *) MOV (R R8) (M CX 152);
  (* 1256 *) ADC (R DX) (R R9);
  (* 1257 *) ADC (Imm 0) (R R10);
  (* 1259 *) XOR (R R8) (R R8);
  (* 1260 *) MOV (M SI 72) (R AX);
  (* 1261 *) MUL (R R11);
  (* 1262 *) ADD (R AX) (R R9);
  (* 1263 *) ADC (R DX) (R R10);
  (* 1264 *) ADC (Imm 0) (R R8);
  (* 1266 *) MOV (M SI 80) (R AX);
  (* 1267 *) MUL (R R15);
  (* 1268 *) ADD (R AX) (R R9);
  (* 1269 *) ADC (R DX) (R R10);
  (* 1270 *) ADC (Imm 0) (R R8);
  (* 1272 *) MOV (M SI 88) (R AX);
  (* 1273 *) MUL (R R13);
  (* 1274 *) ADD (R AX) (R R9);
  (* 1275 *) MOV (R R9) (M CX 160);
  (* 1276 *) ADC (R DX) (R R10);
  (* 1277 *) ADC (Imm 0) (R R8);
  (* 1279 *) MOV (M SI 88) (R AX);
  (* 1280 *) MUL (R R15);
  (* 1281 *) ADD (R AX) (R R10);
  (* 1282 *) ADC (R DX) (R R8);
  (* 1284 *) MOV (M SI 80) (R AX);
  (* 1285 *) MUL (R R11);
  (* 1286 *) ADD (R AX) (R R10);
  (* 1287 *) MOV (R R10) (M CX 168);
  (* 1288 *) ADC (R DX) (R R8);
  (* 1290 *) MOV (M SI 88) (R AX);
  (* 1291 *) MUL (R R11);
  (* 1292 *) ADD (R AX) (R R8);
  (* 1293 *) MOV (R R8) (M CX 176);
  (* 1294 *) ADC (Imm 0) (R DX);
  (* 1295 *) MOV (R DX) (M CX 184);
  (* 1298 *) MOV (M SP 0) (R R8);
  (* 1299 *) SUB (M CX 0) (R R8);
  (* 1300 *) MOV (M SP 8) (R R9);
  (* 1301 *) SBB (M CX 8) (R R9);
  (* 1302 *) MOV (M SP 16) (R R10);
  (* 1303 *) SBB (M CX 16) (R R10);
  (* 1304 *) MOV (M SP 24) (R R11);
  (* 1305 *) SBB (M CX 24) (R R11);
  (* 1306 *) MOV (M SP 32) (R R12);
  (* 1307 *) SBB (M CX 32) (R R12);
  (* 1308 *) MOV (M SP 40) (R R13);
  (* 1309 *) SBB (M CX 40) (R R13);
  (* 1310 *) MOV (M SP 48) (R R14);
  (* 1311 *) SBB (M CX 48) (R R14);
  (* 1312 *) MOV (M SP 56) (R R15);
  (* 1313 *) SBB (M CX 56) (R R15);
  (* 1314 *) MOV (M SP 64) (R AX);
  (* 1315 *) SBB (M CX 64) (R AX);
  (* 1316 *) MOV (M SP 72) (R DX);
  (* 1317 *) SBB (M CX 72) (R DX);
  (* 1318 *) MOV (M SP 80) (R DI);
  (* 1319 *) SBB (M CX 80) (R DI);
  (* 1320 *) MOV (M SP 88) (R SI);
  (* 1321 *) SBB (M CX 88) (R SI);
  (* 1322 *) MOV (R SI) (M SP 0);
  (* 1325 *) MOV (M CX 96) (R SI);
  (* 1326 *) SUB (R SI) (R R8);
  (* 1327 *) MOV (M CX 104) (R SI);
  (* 1328 *) SBB (R SI) (R R9);
  (* 1329 *) MOV (M CX 112) (R SI);
  (* 1330 *) SBB (R SI) (R R10);
  (* 1331 *) MOV (M CX 120) (R SI);
  (* 1332 *) SBB (R SI) (R R11);
  (* 1333 *) MOV (M CX 128) (R SI);
  (* 1334 *) SBB (R SI) (R R12);
  (* 1335 *) MOV (M CX 136) (R SI);
  (* 1336 *) SBB (R SI) (R R13);
  (* 1337 *) MOV (M CX 144) (R SI);
  (* 1338 *) SBB (R SI) (R R14);
  (* 1339 *) MOV (M CX 152) (R SI);
  (* 1340 *) SBB (R SI) (R R15);
  (* 1341 *) MOV (M CX 160) (R SI);
  (* 1342 *) SBB (R SI) (R AX);
  (* 1343 *) MOV (M CX 168) (R SI);
  (* 1344 *) SBB (R SI) (R DX);
  (* 1345 *) MOV (M CX 176) (R SI);
  (* 1346 *) SBB (R SI) (R DI);
  (* 1347 *) MOV (M SP 0) (R SI);
  (* 1348 *) SBB (M CX 184) (R SI);
  (* 1351 *) ADD (M CX 48) (R R8);
  (* 1352 *) MOV (R R8) (M CX 48);
  (* 1353 *) ADC (M CX 56) (R R9);
  (* 1354 *) MOV (R R9) (M CX 56);
  (* 1355 *) ADC (M CX 64) (R R10);
  (* 1356 *) MOV (R R10) (M CX 64);
  (* 1357 *) ADC (M CX 72) (R R11);
  (* 1358 *) MOV (R R11) (M CX 72);
  (* 1359 *) ADC (M CX 80) (R R12);
  (* 1360 *) MOV (R R12) (M CX 80);
  (* 1361 *) ADC (M CX 88) (R R13);
  (* 1362 *) MOV (R R13) (M CX 88);
  (* 1363 *) ADC (M CX 96) (R R14);
  (* 1364 *) MOV (R R14) (M CX 96);
  (* 1365 *) ADC (M CX 104) (R R15);
  (* 1366 *) MOV (R R15) (M CX 104);
  (* 1367 *) ADC (M CX 112) (R AX);
  (* 1368 *) MOV (R AX) (M CX 112);
  (* 1369 *) ADC (M CX 120) (R DX);
  (* 1370 *) MOV (R DX) (M CX 120);
  (* 1371 *) ADC (M CX 128) (R DI);
  (* 1372 *) MOV (R DI) (M CX 128);
  (* 1373 *) ADC (M CX 136) (R SI);
  (* 1374 *) MOV (R SI) (M CX 136);
  (* 1375 *) MOV (M CX 144) (R AX);
  (* 1376 *) ADC (Imm 0) (R AX);
  (* 1377 *) MOV (R AX) (M CX 144);
  (* 1378 *) MOV (M CX 152) (R AX);
  (* 1379 *) ADC (Imm 0) (R AX);
  (* 1380 *) MOV (R AX) (M CX 152);
  (* 1381 *) MOV (M CX 160) (R AX);
  (* 1382 *) ADC (Imm 0) (R AX);
  (* 1383 *) MOV (R AX) (M CX 160);
  (* 1384 *) MOV (M CX 168) (R AX);
  (* 1385 *) ADC (Imm 0) (R AX);
  (* 1386 *) MOV (R AX) (M CX 168);
  (* 1387 *) MOV (M CX 176) (R AX);
  (* 1388 *) ADC (Imm 0) (R AX);
  (* 1389 *) MOV (R AX) (M CX 176);
  (* 1390 *) MOV (M CX 184) (R AX);
  (* 1391 *) ADC (Imm 0) (R AX);
  (* 1392 *) MOV (R AX) (M CX 184) ].

(* rdcP751, arith_amd64.s from line 2354, frame of 0 bytes *)
Definition rdcP751Asm_redc_with_mulx_adcx_adox : list instr := [
  (* 2354 *) MOV (M DI 0) (R DX); MULX (G g_p1 40) R9 R8; MULX (G g_p1 48) R10 R13; MOV (R R9) (M SI 48); XOR (R AX) (R AX); MULX (G g_p1 56) R12 R14; ADOX (R R10) R8;
    ADOX (R R12) R13; MULX (G g_p1 64) R10 R9; ADOX (R R10) R14; MULX (G g_p1 72) R11 R12; ADOX (R R11) R9; MULX (G g_p1 80) BP R10; ADOX (R BP) R12; MULX (G g_p1 88) BX R11;
    ADOX (R BX) R10; ADOX (R AX) R11; MOV (M DI 8) (R DX); MULX (G g_p1 40) BP BX; XOR (R AX) (R AX); ADCX (R BP) R8; MOV (R R8) (M SI 56); ADCX (R BX) R13;
    MULX (G g_p1 48) BX BP; ADOX (R BX) R13; ADCX (R BP) R14; MULX (G g_p1 56) BX R8; ADOX (R BX) R14; ADCX (R R9) R8; MULX (G g_p1 64) BP R9; ADCX (R R12) R9;
    MULX (G g_p1 72) BX R12; ADCX (R R12) R10; MULX (G g_p1 80) CX R12; ADCX (R R12) R11; MULX (G g_p1 88) DX R12; ADCX (R AX) R12; ADOX (R BP) R8; ADOX (R BX) R9;
    ADOX (R CX) R10; ADOX (R DX) R11; ADOX (R AX) R12; MOV (M DI 16) (R DX); MULX (G g_p1 40) BP BX; XOR (R AX) (R AX); ADCX (R BP) R13; MOV (R R13) (M SI 64);
    ADCX (R BX) R14; MULX (G g_p1 48) BP BX; ADOX (R BP) R14; ADCX (R BX) R8; MULX (G g_p1 56) BX R13; ADOX (R BX) R8; ADCX (R R13) R9; MULX (G g_p1 64) BP R13;
    ADCX (R R13) R10; MULX (G g_p1 72) BX R13; ADCX (R R13) R11; MULX (G g_p1 80) CX R13; ADCX (R R13) R12; MULX (G g_p1 88) DX R13; ADCX (R AX) R13; ADOX (R BP) R9;
    ADOX (R BX) R10; ADOX (R CX) R11; ADOX (R DX) R12; ADOX (R AX) R13; MOV (M DI 24) (R DX); MULX (G g_p1 40) BP BX; XOR (R AX) (R AX); ADCX (R R14) BP;
    ADCX (R BX) R8; MULX (G g_p1 48) R15 BX; ADOX (R R15) R8; ADCX (R BX) R9; MULX (G g_p1 56) BX R14; ADOX (R BX) R9; ADCX (R R14) R10; MULX (G g_p1 64) R15 R14;
    ADCX (R R14) R11; MULX (G g_p1 72) BX R14; ADCX (R R14) R12; MULX (G g_p1 80) CX R14; ADCX (R R14) R13; MULX (G g_p1 88) DX R14; ADCX (R AX) R14; ADOX (R R15) R10;
    ADOX (R BX) R11; ADOX (R CX) R12; ADOX (R DX) R13; ADOX (R AX) R14; XOR (R R15) (R R15); MOV (M SI 48) (R AX); MOV (M SI 56) (R DX); MOV (M SI 64) (R BX);
    ADD (M DI 40) (R AX); ADC (M DI 48) (R DX); ADC (M DI 56) (R BX); MOV (R AX) (M DI 40); MOV (R DX) (M DI 48); MOV (R BX) (M DI 56); ADC (M DI 64) (R BP);
    ADC (M DI 72) (R R8); ADC (M DI 80) (R R9); ADC (M DI 88) (R R10); ADC (M DI 96) (R R11); ADC (M DI 104) (R R12); ADC (M DI 112) (R R13); ADC (M DI 120) (R R14);
    ADC (M DI 128) (R R15); MOV (R BP) (M DI 64); MOV (R R8) (M DI 72); MOV (R R9) (M DI 80); MOV (R R10) (M DI 88); MOV (R R11) (M DI 96); MOV (R R12) (M DI 104);
    MOV (R R13) (M DI 112); MOV (R R14) (M DI 120); MOV (R R15) (M DI 128); MOV (M DI 136) (R R8); MOV (M DI 144) (R R9); MOV (M DI 152) (R R10); MOV (M DI 160) (R R11);
    MOV (M DI 168) (R R12); MOV (M DI 176) (R R13); MOV (M DI 184) (R R14); ADC (Imm 0) (R R8); ADC (Imm 0) (R R9); ADC (Imm 0) (R R10); ADC (Imm 0) (R R11);
    ADC (Imm 0) (R R12); ADC (Imm 0) (R R13); ADC (Imm 0) (R R14); MOV (R R8) (M DI 136); MOV (R R9) (M DI 144); MOV (R R10) (M DI 152); MOV (R R11) (M DI 160);
    MOV (R R12) (M DI 168); MOV (R R13) (M DI 176); MOV (R R14) (M DI 184); MOV (M DI 32) (R DX); MULX (G g_p1 40) R9 R8; MULX (G g_p1 48) R10 R13; MOV (R R9) (M SI 48);
    XOR (R AX) (R AX); MULX (G g_p1 56) R12 R14; ADOX (R R10) R8; ADOX (R R12) R13; MULX (G g_p1 64) R10 R9; ADOX (R R10) R14; MULX (G g_p1 72) R11 R12;
    ADOX (R R11) R9; MULX (G g_p1 80) BP R10; ADOX (R BP) R12; MULX (G g_p1 88) BX R11; ADOX (R BX) R10; ADOX (R AX) R11; MOV (M DI 40) (R DX); MULX (G g_p1 40) BP BX;
    XOR (R AX) (R AX); ADCX (R BP) R8; MOV (R R8) (M SI 56); ADCX (R BX) R13; MULX (G g_p1 48) BX BP; ADOX (R BX) R13; ADCX (R BP) R14; MULX (G g_p1 56) BX R8;
    ADOX (R BX) R14; ADCX (R R9) R8; MULX (G g_p1 64) BP R9; ADCX (R R12) R9; MULX (G g_p1 72) BX R12; ADCX (R R12) R10; MULX (G g_p1 80) CX R12; ADCX (R R12) R11;
    MULX (G g_p1 88) DX R12; ADCX (R AX) R12; ADOX (R BP) R8; ADOX (R BX) R9; ADOX (R CX) R10; ADOX (R DX) R11; ADOX (R AX) R12; MOV (M DI 48) (R DX); MULX (G g_p1 40) BP BX;
    XOR (R AX) (R AX); ADCX (R BP) R13; MOV (R R13) (M SI 64); ADCX (R BX) R14; MULX (G g_p1 48) BP BX; ADOX (R BP) R14; ADCX (R BX) R8; MULX (G g_p1 56) BX R13;
    ADOX (R BX) R8; ADCX (R R13) R9; MULX (G g_p1 64) BP R13; ADCX (R R13) R10; MULX (G g_p1 72) BX R13; ADCX (R R13) R11; MULX (G g_p1 80) CX R13; ADCX (R R13) R12;
    MULX (G g_p1 88) DX R13; ADCX (R AX) R13; ADOX (R BP) R9; ADOX (R BX) R10; ADOX (R CX) R11; ADOX (R DX) R12; ADOX (R AX) R13; MOV (M DI 56) (R DX);
    MULX (G g_p1 40) BP BX; XOR (R AX) (R AX); ADCX (R R14) BP; ADCX (R BX) R8; MULX (G g_p1 48) R15 BX; ADOX (R R15) R8; ADCX (R BX) R9; MULX (G g_p1 56) BX R14;
    ADOX (R BX) R9; ADCX (R R14) R10; MULX (G g_p1 64) R15 R14; ADCX (R R14) R11; MULX (G g_p1 72) BX R14; ADCX (R R14) R12; MULX (G g_p1 80) CX R14; ADCX (R R14) R13;
    MULX (G g_p1 88) DX R14; ADCX (R AX) R14; ADOX (R R15) R10; ADOX (R BX) R11; ADOX (R CX) R12; ADOX (R DX) R13; ADOX (R AX) R14; XOR (R R15) (R R15);
    MOV (M SI 48) (R AX); MOV (M SI 56) (R DX); MOV (M SI 64) (R BX); ADD (M DI 72) (R AX); ADC (M DI 80) (R DX); ADC (M DI 88) (R BX); MOV (R AX) (M DI 72);
    MOV (R DX) (M DI 80); MOV (R BX) (M DI 88); ADC (M DI 96) (R BP); ADC (M DI 104) (R R8); ADC (M DI 112) (R R9); ADC (M DI 120) (R R10); ADC (M DI 128) (R R11);
    ADC (M DI 136) (R R12); ADC (M DI 144) (R R13); ADC (M DI 152) (R R14); ADC (M DI 160) (R R15); MOV (R BP) (M SI 0); MOV (R R8) (M DI 104); MOV (R R9) (M DI 112);
    MOV (R R10) (M DI 120); MOV (R R11) (M DI 128); MOV (R R12) (M DI 136); MOV (R R13) (M DI 144); MOV (R R14) (M DI 152); MOV (R R15) (M DI 160); MOV (M DI 168) (R R12);
    MOV (M DI 176) (R R13); MOV (M DI 184) (R R14); ADC (Imm 0) (R R12); ADC (Imm 0) (R R13); ADC (Imm 0) (R R14); MOV (R R12) (M DI 168); MOV (R R13) (M DI 176);
    MOV (R R14) (M DI 184); MOV (M DI 64) (R DX); MULX (G g_p1 40) R9 R8; MULX (G g_p1 48) R10 R13; MOV (R R9) (M SI 48); XOR (R AX) (R AX); MULX (G g_p1 56) R12 R14;
    ADOX (R R10) R8; ADOX (R R12) R13; MULX (G g_p1 64) R10 R9; ADOX (R R10) R14; MULX (G g_p1 72) R11 R12; ADOX (R R11) R9; MULX (G g_p1 80) BP R10; ADOX (R BP) R12;
    MULX (G g_p1 88) BX R11; ADOX (R BX) R10; ADOX (R AX) R11; MOV (M DI 72) (R DX); MULX (G g_p1 40) BP BX; XOR (R AX) (R AX); ADCX (R BP) R8; MOV (R R8) (M SI 56);
    ADCX (R BX) R13; MULX (G g_p1 48) BX BP; ADOX (R BX) R13; ADCX (R BP) R14; MULX (G g_p1 56) BX R8; ADOX (R BX) R14; ADCX (R R9) R8; MULX (G g_p1 64) BP R9;
    ADCX (R R12) R9; MULX (G g_p1 72) BX R12; ADCX (R R12) R10; MULX (G g_p1 80) CX R12; ADCX (R R12) R11; MULX (G g_p1 88) DX R12; ADCX (R AX) R12; ADOX (R BP) R8;
    ADOX (R BX) R9; ADOX (R CX) R10; ADOX (R DX) R11; ADOX (R AX) R12; MOV (M DI 80) (R DX); MULX (G g_p1 40) BP BX; XOR (R AX) (R AX); ADCX (R BP) R13;
    MOV (R R13) (M SI 64); ADCX (R BX) R14; MULX (G g_p1 48) BP BX; ADOX (R BP) R14; ADCX (R BX) R8; MULX (G g_p1 56) BX R13; ADOX (R BX) R8; ADCX (R R13) R9;
    MULX (G g_p1 64) BP R13; ADCX (R R13) R10; MULX (G g_p1 72) BX R13; ADCX (R R13) R11; MULX (G g_p1 80) CX R13; ADCX (R R13) R12; MULX (G g_p1 88) DX R13;
    ADCX (R AX) R13; ADOX (R BP) R9; ADOX (R BX) R10; ADOX (R CX) R11; ADOX (R DX) R12; ADOX (R AX) R13; MOV (M DI 88) (R DX); MULX (G g_p1 40) BP BX; XOR (R AX) (R AX);
    ADCX (R R14) BP; ADCX (R BX) R8; MULX (G g_p1 48) R15 BX; ADOX (R R15) R8; ADCX (R BX) R9; MULX (G g_p1 56) BX R14; ADOX (R BX) R9; ADCX (R R14) R10;
    MULX (G g_p1 64) R15 R14; ADCX (R R14) R11; MULX (G g_p1 72) BX R14; ADCX (R R14) R12; MULX (G g_p1 80) CX R14; ADCX (R R14) R13; MULX (G g_p1 88) DX R14;
    ADCX (R AX) R14; ADOX (R R15) R10; ADOX (R BX) R11; ADOX (R CX) R12; ADOX (R DX) R13; ADOX (R AX) R14; MOV (M SI 48) (R AX); MOV (M SI 56) (R DX); MOV (M SI 64) (R BX);
    ADD (M DI 104) (R AX); ADC (M DI 112) (R DX); ADC (M DI 120) (R BX); MOV (R AX) (M SI 8); MOV (R DX) (M SI 16); MOV (R BX) (M SI 24); ADC (M DI 128) (R BP);
    ADC (M DI 136) (R R8); ADC (M DI 144) (R R9); ADC (M DI 152) (R R10); ADC (M DI 160) (R R11); ADC (M DI 168) (R R12); ADC (M DI 176) (R R13); ADC (M DI 184) (R R14);
    MOV (R BP) (M SI 32); MOV (R R8) (M SI 40); MOV (R R9) (M SI 48); MOV (R R10) (M SI 56); MOV (R R11) (M SI 64); MOV (R R12) (M SI 72); MOV (R R13) (M SI 80);
    MOV (R R14) (M SI 88) ].

(* rdcP751, arith_amd64.s from line 2361, frame of 0 bytes *)
Definition rdcP751Asm_redc_with_mulx : list instr := [
  (* 2361 *) MOV (M DI 0) (R DX); MULX (G g_p1 40) R9 R8; MULX (G g_p1 48) R10 R13; MOV (R R9) (M SI 48); XOR (R AX) (R AX); MULX (G g_p1 56) R12 R14; ADD (R R10) (R R8);
    ADC (R R12) (R R13); MULX (G g_p1 64) R10 R9; ADC (R R10) (R R14); MULX (G g_p1 72) R11 R12; ADC (R R11) (R R9); MULX (G g_p1 80) BP R10; ADC (R BP) (R R12);
    MULX (G g_p1 88) BX R11; ADC (R BX) (R R10); ADC (R AX) (R R11); MOV (M DI 8) (R DX); MULX (G g_p1 40) BP BX; ADD (R BP) (R R8); MOV (R R8) (M SI 56);
    ADC (R BX) (R R13); MULX (G g_p1 48) BX BP; MOV (R BX) (M SI 80); ADC (R BP) (R R14); MULX (G g_p1 56) BX R8; MOV (R BX) (M SI 88); ADC (R R9) (R R8);
    MULX (G g_p1 64) BP R9; ADC (R R12) (R R9); MULX (G g_p1 72) BX R12; ADC (R R12) (R R10); MULX (G g_p1 80) CX R12; ADC (R R12) (R R11); MULX (G g_p1 88) DX R12;
    ADC (R AX) (R R12); XOR (R AX) (R AX); ADD (M SI 80) (R R13); ADC (M SI 88) (R R14); ADC (R BP) (R R8); ADC (R BX) (R R9); ADC (R CX) (R R10); ADC (R DX) (R R11);
    ADC (R AX) (R R12); MOV (M DI 16) (R DX); MULX (G g_p1 40) BP BX; ADD (R BP) (R R13); MOV (R R13) (M SI 64); ADC (R BX) (R R14); MULX (G g_p1 48) BP BX;
    MOV (R BP) (M SI 80); ADC (R BX) (R R8); MULX (G g_p1 56) BX R13; MOV (R BX) (M SI 88); ADC (R R13) (R R9); MULX (G g_p1 64) BP R13; ADC (R R13) (R R10);
    MULX (G g_p1 72) BX R13; ADC (R R13) (R R11); MULX (G g_p1 80) CX R13; ADC (R R13) (R R12); MULX (G g_p1 88) DX R13; ADC (R AX) (R R13); XOR (R AX) (R AX);
    ADD (M SI 80) (R R14); ADC (M SI 88) (R R8); ADC (R BP) (R R9); ADC (R BX) (R R10); ADC (R CX) (R R11); ADC (R DX) (R R12); ADC (R AX) (R R13); MOV (M DI 24) (R DX);
    MULX (G g_p1 40) BP BX; ADD (R R14) (R BP); ADC (R BX) (R R8); MULX (G g_p1 48) R15 BX; MOV (R R15) (M SI 80); ADC (R BX) (R R9); MULX (G g_p1 56) BX R14;
    MOV (R BX) (M SI 88); ADC (R R14) (R R10); MULX (G g_p1 64) R15 R14; ADC (R R14) (R R11); MULX (G g_p1 72) BX R14; ADC (R R14) (R R12); MULX (G g_p1 80) CX R14;
    ADC (R R14) (R R13); MULX (G g_p1 88) DX R14; ADC (R AX) (R R14); XOR (R AX) (R AX); ADD (M SI 80) (R R8); ADC (M SI 88) (R R9); ADC (R R15) (R R10);
    ADC (R BX) (R R11); ADC (R CX) (R R12); ADC (R DX) (R R13); ADC (R AX) (R R14); XOR (R R15) (R R15); MOV (M SI 48) (R AX); MOV (M SI 56) (R DX); MOV (M SI 64) (R BX);
    ADD (M DI 40) (R AX); ADC (M DI 48) (R DX); ADC (M DI 56) (R BX); MOV (R AX) (M DI 40); MOV (R DX) (M DI 48); MOV (R BX) (M DI 56); ADC (M DI 64) (R BP);
    ADC (M DI 72) (R R8); ADC (M DI 80) (R R9); ADC (M DI 88) (R R10); ADC (M DI 96) (R R11); ADC (M DI 104) (R R12); ADC (M DI 112) (R R13); ADC (M DI 120) (R R14);
    ADC (M DI 128) (R R15); MOV (R BP) (M DI 64); MOV (R R8) (M DI 72); MOV (R R9) (M DI 80); MOV (R R10) (M DI 88); MOV (R R11) (M DI 96); MOV (R R12) (M DI 104);
    MOV (R R13) (M DI 112); MOV (R R14) (M DI 120); MOV (R R15) (M DI 128); MOV (M DI 136) (R R8); MOV (M DI 144) (R R9); MOV (M DI 152) (R R10); MOV (M DI 160) (R R11);
    MOV (M DI 168) (R R12); MOV (M DI 176) (R R13); MOV (M DI 184) (R R14); ADC (Imm 0) (R R8); ADC (Imm 0) (R R9); ADC (Imm 0) (R R10); ADC (Imm 0) (R R11);
    ADC (Imm 0) (R R12); ADC (Imm 0) (R R13); ADC (Imm 0) (R R14); MOV (R R8) (M DI 136); MOV (R R9) (M DI 144); MOV (R R10) (M DI 152); MOV (R R11) (M DI 160);
    MOV (R R12) (M DI 168); MOV (R R13) (M DI 176); MOV (R R14) (M DI 184); MOV (M DI 32) (R DX); MULX (G g_p1 40) R9 R8; MULX (G g_p1 48) R10 R13; MOV (R R9) (M SI 48);
    XOR (R AX) (R AX); MULX (G g_p1 56) R12 R14; ADD (R R10) (R R8); ADC (R R12) (R R13); MULX (G g_p1 64) R10 R9; ADC (R R10) (R R14); MULX (G g_p1 72) R11 R12;
    ADC (R R11) (R R9); MULX (G g_p1 80) BP R10; ADC (R BP) (R R12); MULX (G g_p1 88) BX R11; ADC (R BX) (R R10); ADC (R AX) (R R11); MOV (M DI 40) (R DX);
    MULX (G g_p1 40) BP BX; ADD (R BP) (R R8); MOV (R R8) (M SI 56); ADC (R BX) (R R13); MULX (G g_p1 48) BX BP; MOV (R BX) (M SI 80); ADC (R BP) (R R14);
    MULX (G g_p1 56) BX R8; MOV (R BX) (M SI 88); ADC (R R9) (R R8); MULX (G g_p1 64) BP R9; ADC (R R12) (R R9); MULX (G g_p1 72) BX R12; ADC (R R12) (R R10);
    MULX (G g_p1 80) CX R12; ADC (R R12) (R R11); MULX (G g_p1 88) DX R12; ADC (R AX) (R R12); XOR (R AX) (R AX); ADD (M SI 80) (R R13); ADC (M SI 88) (R R14);
    ADC (R BP) (R R8); ADC (R BX) (R R9); ADC (R CX) (R R10); ADC (R DX) (R R11); ADC (R AX) (R R12); MOV (M DI 48) (R DX); MULX (G g_p1 40) BP BX; ADD (R BP) (R R13);
    MOV (R R13) (M SI 64); ADC (R BX) (R R14); MULX (G g_p1 48) BP BX; MOV (R BP) (M SI 80); ADC (R BX) (R R8); MULX (G g_p1 56) BX R13; MOV (R BX) (M SI 88);
    ADC (R R13) (R R9); MULX (G g_p1 64) BP R13; ADC (R R13) (R R10); MULX (G g_p1 72) BX R13; ADC (R R13) (R R11); MULX (G g_p1 80) CX R13; ADC (R R13) (R R12);
    MULX (G g_p1 88) DX R13; ADC (R AX) (R R13); XOR (R AX) (R AX); ADD (M SI 80) (R R14); ADC (M SI 88) (R R8); ADC (R BP) (R R9); ADC (R BX) (R R10);
    ADC (R CX) (R R11); ADC (R DX) (R R12); ADC (R AX) (R R13); MOV (M DI 56) (R DX); MULX (G g_p1 40) BP BX; ADD (R R14) (R BP); ADC (R BX) (R R8); MULX (G g_p1 48) R15 BX;
    MOV (R R15) (M SI 80); ADC (R BX) (R R9); MULX (G g_p1 56) BX R14; MOV (R BX) (M SI 88); ADC (R R14) (R R10); MULX (G g_p1 64) R15 R14; ADC (R R14) (R R11);
    MULX (G g_p1 72) BX R14; ADC (R R14) (R R12); MULX (G g_p1 80) CX R14; ADC (R R14) (R R13); MULX (G g_p1 88) DX R14; ADC (R AX) (R R14); XOR (R AX) (R AX);
    ADD (M SI 80) (R R8); ADC (M SI 88) (R R9); ADC (R R15) (R R10); ADC (R BX) (R R11); ADC (R CX) (R R12); ADC (R DX) (R R13); ADC (R AX) (R R14); XOR (R R15) (R R15);
    MOV (M SI 48) (R AX); MOV (M SI 56) (R DX); MOV (M SI 64) (R BX); ADD (M DI 72) (R AX); ADC (M DI 80) (R DX); ADC (M DI 88) (R BX); MOV (R AX) (M DI 72);
    MOV (R DX) (M DI 80); MOV (R BX) (M DI 88); ADC (M DI 96) (R BP); ADC (M DI 104) (R R8); ADC (M DI 112) (R R9); ADC (M DI 120) (R R10); ADC (M DI 128) (R R11);
    ADC (M DI 136) (R R12); ADC (M DI 144) (R R13); ADC (M DI 152) (R R14); ADC (M DI 160) (R R15); MOV (R BP) (M SI 0); MOV (R R8) (M DI 104); MOV (R R9) (M DI 112);
    MOV (R R10) (M DI 120); MOV (R R11) (M DI 128); MOV (R R12) (M DI 136); MOV (R R13) (M DI 144); MOV (R R14) (M DI 152); MOV (R R15) (M DI 160); MOV (M DI 168) (R R12);
    MOV (M DI 176) (R R13); MOV (M DI 184) (R R14); ADC (Imm 0) (R R12); ADC (Imm 0) (R R13); ADC (Imm 0) (R R14); MOV (R R12) (M DI 168); MOV (R R13) (M DI 176);
    MOV (R R14) (M DI 184); MOV (M DI 64) (R DX); MULX (G g_p1 40) R9 R8; MULX (G g_p1 48) R10 R13; MOV (R R9) (M SI 48); XOR (R AX) (R AX); MULX (G g_p1 56) R12 R14;
    ADD (R R10) (R R8); ADC (R R12) (R R13); MULX (G g_p1 64) R10 R9; ADC (R R10) (R R14); MULX (G g_p1 72) R11 R12; ADC (R R11) (R R9); MULX (G g_p1 80) BP R10;
    ADC (R BP) (R R12); MULX (G g_p1 88) BX R11; ADC (R BX) (R R10); ADC (R AX) (R R11); MOV (M DI 72) (R DX); MULX (G g_p1 40) BP BX; ADD (R BP) (R R8);
    MOV (R R8) (M SI 56); ADC (R BX) (R R13); MULX (G g_p1 48) BX BP; MOV (R BX) (M SI 80); ADC (R BP) (R R14); MULX (G g_p1 56) BX R8; MOV (R BX) (M SI 88);
    ADC (R R9) (R R8); MULX (G g_p1 64) BP R9; ADC (R R12) (R R9); MULX (G g_p1 72) BX R12; ADC (R R12) (R R10); MULX (G g_p1 80) CX R12; ADC (R R12) (R R11);
    MULX (G g_p1 88) DX R12; ADC (R AX) (R R12); XOR (R AX) (R AX); ADD (M SI 80) (R R13); ADC (M SI 88) (R R14); ADC (R BP) (R R8); ADC (R BX) (R R9);
    ADC (R CX) (R R10); ADC (R DX) (R R11); ADC (R AX) (R R12); MOV (M DI 80) (R DX); MULX (G g_p1 40) BP BX; ADD (R BP) (R R13); MOV (R R13) (M SI 64);
    ADC (R BX) (R R14); MULX (G g_p1 48) BP BX; MOV (R BP) (M SI 80); ADC (R BX) (R R8); MULX (G g_p1 56) BX R13; MOV (R BX) (M SI 88); ADC (R R13) (R R9);
    MULX (G g_p1 64) BP R13; ADC (R R13) (R R10); MULX (G g_p1 72) BX R13; ADC (R R13) (R R11); MULX (G g_p1 80) CX R13; ADC (R R13) (R R12); MULX (G g_p1 88) DX R13;
    ADC (R AX) (R R13); XOR (R AX) (R AX); ADD (M SI 80) (R R14); ADC (M SI 88) (R R8); ADC (R BP) (R R9); ADC (R BX) (R R10); ADC (R CX) (R R11); ADC (R DX) (R R12);
    ADC (R AX) (R R13); MOV (M DI 88) (R DX); MULX (G g_p1 40) BP BX; ADD (R R14) (R BP); ADC (R BX) (R R8); MULX (G g_p1 48) R15 BX; MOV (R R15) (M SI 80);
    ADC (R BX) (R R9); MULX (G g_p1 56) BX R14; MOV (R BX) (M SI 88); ADC (R R14) (R R10); MULX (G g_p1 64) R15 R14; ADC (R R14) (R R11); MULX (G g_p1 72) BX R14;
    ADC (R R14) (R R12); MULX (G g_p1 80) CX R14; ADC (R R14) (R R13); MULX (G g_p1 88) DX R14; ADC (R AX) (R R14); XOR (R AX) (R AX); ADD (M SI 80) (R R8);
    ADC (M SI 88) (R R9); ADC (R R15) (R R10); ADC (R BX) (R R11); ADC (R CX) (R R12); ADC (R DX) (R R13); ADC (R AX) (R R14); MOV (M SI 48) (R AX); MOV (M SI 56) (R DX);
    MOV (M SI 64) (R BX); ADD (M DI 104) (R AX); ADC (M DI 112) (R DX); ADC (M DI 120) (R BX); MOV (R AX) (M SI 8); MOV (R DX) (M SI 16); MOV (R BX) (M SI 24);
    ADC (M DI 128) (R BP); ADC (M DI 136) (R R8); ADC (M DI 144) (R R9); ADC (M DI 152) (R R10); ADC (M DI 160) (R R11); ADC (M DI 168) (R R12); ADC (M DI 176) (R R13);
    ADC (M DI 184) (R R14); MOV (R BP) (M SI 32); MOV (R R8) (M SI 40); MOV (R R9) (M SI 48); MOV (R R10) (M SI 56); MOV (R R11) (M SI 64); MOV (R R12) (M SI 72);
    MOV (R R13) (M SI 80); MOV (R R14) (M SI 88) ].

(* rdcP751, arith_amd64.s from line 1738, frame of 0 bytes *)
Definition rdcP751Asm : list instr := [
  (* 1739 *) MOV (A 0) (R SI);
  (* 1740 *) MOV (A 8) (R DI);
  (* 1743 *) JFLAG g_HasADXandBMI2 rdcP751Asm_redc_with_mulx_adcx_adox;
  (* 1745 *) JFLAG g_HasBMI2 rdcP751Asm_redc_with_mulx;
  (* 1748 *) MOV (M DI 0) (R R11);
  (* 1749 *) MOV (Imm 17199246976927924224) (R AX);
  (* 1750 *) MUL (R R11);
  (* 1751 *) XOR (R R8) (R R8);
  (* 1752 *) ADD (M DI 40) (R AX);
  (* 1753 *) MOV (R AX) (M SI 40);
  (* 1754 *) ADC (R DX) (R R8);
  (* 1756 *) XOR (R R9) (R R9);
  (* 1757 *) MOV (Imm 16423667440329193640) (R AX);
  (* 1758 *) MUL (R R11);
  (* 1759 *) XOR (R R10) (R R10);
  (* 1760 *) ADD (R AX) (R R8);
  (* 1761 *) ADC (R DX) (R R9);
  (* 1763 *) MOV (M DI 8) (R R12);
  (* 1764 *) MOV (Imm 17199246976927924224) (R AX);
  (* 1765 *) MUL (R R12);
  (* 1766 *) ADD (R AX) (R R8);
  (* 1767 *) ADC (R DX) (R R9);
  (* 1768 *) ADC (Imm 0) (R R10);
  (* 1769 *) ADD (M DI 48) (R R8);
  (* 1770 *) MOV (R R8) (M SI 48);
  (* 1771 *) ADC (Imm 0) (R R9);
  (* 1772 *) ADC (Imm 0) (R R10);
  (* 1774 *) XOR (R R8) (R R8);
  (* 1775 *) MOV (Imm 15750665808104639606) (R AX);
  (* 1776 *) MUL (R R11);
  (* 1777 *) ADD (R AX) (R R9);
  (* 1778 *) ADC (R DX) (R R10);
  (* 1779 *) ADC (Imm 0) (R R8);
  (* 1781 *) MOV (Imm 16423667440329193640) (R AX);
  (* 1782 *) MUL (R R12);
  (* 1783 *) ADD (R AX) (R R9);
  (* 1784 *) ADC (R DX) (R R10);
  (* 1785 *) ADC (Imm 0) (R R8);
  (* 1787 *) MOV (M DI 16) (R R13);
  (* 1788 *) MOV (Imm 17199246976927924224) (R AX);
  (* 1789 *) MUL (R R13);
  (* 1790 *) ADD (R AX) (R R9);
  (* 1791 *) ADC (R DX) (R R10);
  (* 1792 *) ADC (Imm 0) (R R8);
  (* 1793 *) ADD (M DI 56) (R R9);
  (* 1794 *) MOV (R R9) (M SI 56);
  (* 1795 *) ADC (Imm 0) (R R10);
  (* 1796 *) ADC (Imm 0) (R R8);
  (* 1798 *) XOR (R R9) (R R9);
  (* 1799 *) MOV (Imm 598583372241692790) (R AX);
  (* 1800 *) MUL (R R11);
  (* 1801 *) ADD (R AX) (R R10);
  (* 1802 *) ADC (R DX) (R R8);
  (* 1803 *) ADC (Imm 0) (R R9);
  (* 1805 *) MOV (Imm 15750665808104639606) (R AX);
  (* 1806 *) MUL (R R12);
  (* 1807 *) ADD (R AX) (R R10);
  (* 1808 *) ADC (R DX) (R R8);
  (* 1809 *) ADC (Imm 0) (R R9);
  (* 1811 *) MOV (Imm 16423667440329193640) (R AX);
  (* 1812 *) MUL (R R13);
  (* 1813 *) ADD (R AX) (R R10);
  (* 1814 *) ADC (R DX) (R R8);
  (* 1815 *) ADC (Imm 0) (R R9);
  (* 1817 *) MOV (M DI 24) (R R14);
  (* 1818 *) MOV (Imm 17199246976927924224) (R AX);
  (* 1819 *) MUL (R R14);
  (* 1820 *) ADD (R AX) (R R10);
  (* 1821 *) ADC (R DX) (R R8);
  (* 1822 *) ADC (Imm 0) (R R9);
  (* 1823 *) ADD (M DI 64) (R R10);
  (* 1824 *) MOV (R R10) (M SI 64);
  (* 1825 *) ADC (Imm 0) (R R8);
  (* 1826 *) ADC (Imm 0) (R R9);
  (* 1828 *) XOR (R R10) (R R10);
  (* 1829 *) MOV (Imm 9611443585101748040) (R AX);
  (* 1830 *) MUL (R R11);
  (* 1831 *) ADD (R AX) (R R8);
  (* 1832 *) ADC (R DX) (R R9);
  (* 1833 *) ADC (Imm 0) (R R10);
  (* 1835 *) MOV (Imm 598583372241692790) (R AX);
  (* 1836 *) MUL (R R12);
  (* 1837 *) ADD (R AX) (R R8);
  (* 1838 *) ADC (R DX) (R R9);
  (* 1839 *) ADC (Imm 0) (R R10);
  (* 1841 *) MOV (Imm 15750665808104639606) (R AX);
  (* 1842 *) MUL (R R13);
  (* 1843 *) ADD (R AX) (R R8);
  (* 1844 *) ADC (R DX) (R R9);
  (* 1845 *) ADC (Imm 0) (R R10);
  (* 1847 *) MOV (Imm 16423667440329193640) (R AX);
  (* 1848 *) MUL (R R14);
  (* 1849 *) ADD (R AX) (R R8);
  (* 1850 *) ADC (R DX) (R R9);
  (* 1851 *) ADC (Imm 0) (R R10);
  (* 1853 *) MOV (M DI 32) (R R15);
  (* 1854 *) MOV (Imm 17199246976927924224) (R AX);
  (* 1855 *) MUL (R R15);
  (* 1856 *) ADD (R AX) (R R8);
  (* 1857 *) ADC (R DX) (R R9);
  (* 1858 *) ADC (Imm 0) (R R10);
  (* 1859 *) ADD (M DI 72) (R R8);
  (* 1860 *) MOV (R R8) (M SI 72);
  (* 1861 *) ADC (Imm 0) (R R9);
  (* 1862 *) ADC (Imm 0) (R R10);
  (* 1864 *) XOR (R R8) (R R8);
  (* 1865 *) MOV (Imm 1014031881231588454) (R AX);
  (* 1866 *) MUL (R R11);
  (* 1867 *) ADD (R AX) (R R9);
  (* 1868 *) ADC (R DX) (R R10);
  (* 1869 *) ADC (Imm 0) (R R8);
  (* 1871 *) MOV (Imm 9611443585101748040) (R AX);
  (* 1872 *) MUL (R R12);
  (* 1873 *) ADD (R AX) (R R9);
  (* 1874 *) ADC (R DX) (R R10);
  (* 1875 *) ADC (Imm 0) (R R8);
  (* 1877 *) MOV (Imm 598583372241692790) (R AX);
  (* 1878 *) MUL (R R13);
  (* 1879 *) ADD (R AX) (R R9);
  (* 1880 *) ADC (R DX) (R R10);
  (* 1881 *) ADC (Imm 0) (R R8);
  (* 1883 *) MOV (Imm 15750665808104639606) (R AX);
  (* 1884 *) MUL (R R14);
  (* 1885 *) ADD (R AX) (R R9);
  (* 1886 *) ADC (R DX) (R R10);
  (* 1887 *) ADC (Imm 0) (R R8);
  (* 1889 *) MOV (Imm 16423667440329193640) (R AX);
  (* 1890 *) MUL (R R15);
  (* 1891 *) ADD (R AX) (R R9);
  (* 1892 *) ADC (R DX) (R R10);
  (* 1893 *) ADC (Imm 0) (R R8);
  (* 1895 *) MOV (M SI 40) (R CX);
  (* 1896 *) MOV (Imm 17199246976927924224) (R AX);
  (* 1897 *) MUL (R CX);
  (* 1898 *) ADD (R AX) (R R9);
  (* 1899 *) ADC (R DX) (R R10);
  (* 1900 *) ADC (Imm 0) (R R8);
  (* 1901 *) ADD (M DI 80) (R R9);
  (* 1902 *) MOV (R R9) (M SI 80);
  (* 1903 *) ADC (Imm 0) (R R10);
  (* 1904 *) ADC (Imm 0) (R R8);
  (* 1906 *) XOR (R R9) (R R9);
  (* 1907 *) MOV (Imm 123032916064028) (R AX);
  (* 1908 *) MUL (R R11);
  (* 1909 *) ADD (R AX) (R R10);
  (* 1910 *) ADC (R DX) (R R8);
  (* 1911 *) ADC (Imm 0) (R R9);
  (* 1913 *) MOV (Imm 1014031881231588454) (R AX);
  (* 1914 *) MUL (R R12);
  (* 1915 *) ADD (R AX) (R R10);
  (* 1916 *) ADC (R DX) (R R8);
  (* 1917 *) ADC (Imm 0) (R R9);
  (* 1919 *) MOV (Imm 9611443585101748040) (R AX);
  (* 1920 *) MUL (R R13);
  (* 1921 *) ADD (R AX) (R R10);
  (* 1922 *) ADC (R DX) (R R8);
  (* 1923 *) ADC (Imm 0) (R R9);
  (* 1925 *) MOV (Imm 598583372241692790) (R AX);
  (* 1926 *) MUL (R R14);
  (* 1927 *) ADD (R AX) (R R10);
  (* 1928 *) ADC (R DX) (R R8);
  (* 1929 *) ADC (Imm 0) (R R9);
  (* 1931 *) MOV (Imm 15750665808104639606) (R AX);
  (* 1932 *) MUL (R R15);
  (* 1933 *) ADD (R AX) (R R10);
  (* 1934 *) ADC (R DX) (R R8);
  (* 1935 *) ADC (Imm 0) (R R9);
  (* 1937 *) MOV (Imm 16423667440329193640) (R AX);
  (* 1938 *) MUL (R CX);
  (* 1939 *) ADD (R AX) (R R10);
  (* 1940 *) ADC (R DX) (R R8);
  (* 1941 *) ADC (Imm 0) (R R9);
  (* 1943 *) MOV (M SI 48) (R R11);
  (* 1944 *) MOV (Imm 17199246976927924224) (R AX);
  (* 1945 *) MUL (R R11);
  (* 1946 *) ADD (R AX) (R R10);
  (* 1947 *) ADC (R DX) (R R8);
  (* 1948 *) ADC (Imm 0) (R R9);
  (* 1949 *) ADD (M DI 88) (R R10);
  (* 1950 *) MOV (R R10) (M SI 88);
  (* 1951 *) ADC (Imm 0) (R R8);
  (* 1952 *) ADC (Imm 0) (R R9);
  (* 1954 *) XOR (R R10) (R R10);
  (* 1955 *) MOV (Imm 123032916064028) (R AX);
  (* 1956 *) MUL (R R12);
  (* 1957 *) ADD (R AX) (R R8);
  (* 1958 *) ADC (R DX) (R R9);
  (* 1959 *) ADC (Imm 0) (R R10);
  (* 1961 *) MOV (Imm 1014031881231588454) (R AX);
  (* 1962 *) MUL (R R13);
  (* 1963 *) ADD (R AX) (R R8);
  (* 1964 *) ADC (R DX) (R R9);
  (* 1965 *) ADC (Imm 0) (R R10);
  (* 1967 *) MOV (Imm 9611443585101748040) (R AX);
  (* 1968 *) MUL (R R14);
  (* 1969 *) ADD (R AX) (R R8);
  (* 1970 *) ADC (R DX) (R R9);
  (* 1971 *) ADC (Imm 0) (R R10);
  (* 1973 *) MOV (Imm 598583372241692790) (R AX);
  (* 1974 *) MUL (R R15);
  (* 1975 *) ADD (R AX) (R R8);
  (* 1976 *) ADC (R DX) (R R9);
  (* 1977 *) ADC (Imm 0) (R R10);
  (* 1979 *) MOV (Imm 15750665808104639606) (R AX);
  (* 1980 *) MUL (R CX);
  (* 1981 *) ADD (R AX) (R R8);
  (* 1982 *) ADC (R DX) (R R9);
  (* 1983 *) ADC (Imm 0) (R R10);
  (* 1985 *) MOV (Imm 16423667440329193640) (R AX);
  (* 1986 *) MUL (R R11);
  (* 1987 *) ADD (R AX) (R R8);
  (* 1988 *) ADC (R DX) (R R9);
  (* 1989 *) ADC (Imm 0) (R R10);
  (* 1991 *) MOV (M SI 56) (R R12);
  (* 1992 *) MOV (Imm 17199246976927924224) (R AX);
  (* 1993 *) MUL (R R12);
  (* 1994 *) ADD (R AX) (R R8);
  (* 1995 *) ADC (R DX) (R R9);
  (* 1996 *) ADC (Imm 0) (R R10);
  (* 1997 *) ADD (M DI 96) (R R8);
  (* 1998 *) MOV (R R8) (M SI 0);
  (* 1999 *) ADC (Imm 0) (R R9);
  (* 2000 *) ADC (Imm 0) (R R10);
  (* 2002 *) XOR (R R8) (R R8);
  (* 2003 *) MOV (Imm 123032916064028) (R AX);
  (* 2004 *) MUL (R R13);
  (* 2005 *) ADD (R AX) (R R9);
  (* 2006 *) ADC (R DX) (R R10);
  (* 2007 *) ADC (Imm 0) (R R8);
  (* 2009 *) MOV (Imm 1014031881231588454) (R AX);
  (* 2010 *) MUL (R R14);
  (* 2011 *) ADD (R AX) (R R9);
  (* 2012 *) ADC (R DX) (R R10);
  (* 2013 *) ADC (Imm 0) (R R8);
  (* 2015 *) MOV (Imm 9611443585101748040) (R AX);
  (* 2016 *) MUL (R R15);
  (* 2017 *) ADD (R AX) (R R9);
  (* 2018 *) ADC (R DX) (R R10);
  (* 2019 *) ADC (Imm 0) (R R8);
  (* 2021 *) MOV (Imm 598583372241692790) (R AX);
  (* 2022 *) MUL (R CX);
  (* 2023 *) ADD (R AX) (R R9);
  (* 2024 *) ADC (R DX) (R R10);
  (* 2025 *) ADC (Imm 0) (R R8);
  (* 2027 *) MOV (Imm 15750665808104639606) (R AX);
  (* 2028 *) MUL (R R11);
  (* 2029 *) ADD (R AX) (R R9);
  (* 2030 *) ADC (R DX) (R R10);
  (* 2031 *) ADC (Imm 0) (R R8);
  (* 2033 *) MOV (Imm 16423667440329193640) (R AX);
  (* 2034 *) MUL (R R12);
  (* 2035 *) ADD (R AX) (R R9);
  (* 2036 *) ADC (R DX) (R R10);
  (* 2037 *) ADC (Imm 0) (R R8);
  (* 2039 *) MOV (M SI 64) (R R13);
  (* 2040 *) MOV (Imm 17199246976927924224) (R AX);
  (* 2041 *) MUL (R R13);
  (* 2042 *) ADD (R AX) (R R9);
  (* 2043 *) ADC (R DX) (R R10);
  (* 2044 *) ADC (Imm 0) (R R8);
  (* 2045 *) ADD (M DI 104) (R R9);
  (* 2046 *) MOV (R R9) (M SI 8);
  (* 2047 *) ADC (Imm 0) (R R10);
  (* 2048 *) ADC (Imm 0) (R R8);
  (* 2050 *) XOR (R R9) (R R9);
  (* 2051 *) MOV (Imm 123032916064028) (R AX);
  (* 2052 *) MUL (R R14);
  (* 2053 *) ADD (R AX) (R R10);
  (* 2054 *) ADC (R DX) (R R8);
  (* 2055 *) ADC (Imm 0) (R R9);
  (* 2057 *) MOV (Imm 1014031881231588454) (R AX);
  (* 2058 *) MUL (R R15);
  (* 2059 *) ADD (R AX) (R R10);
  (* 2060 *) ADC (R DX) (R R8);
  (* 2061 *) ADC (Imm 0) (R R9);
  (* 2063 *) MOV (Imm 9611443585101748040) (R AX);
  (* 2064 *) MUL (R CX);
  (* 2065 *) ADD (R AX) (R R10);
  (* 2066 *) ADC (R DX) (R R8);
  (* 2067 *) ADC (Imm 0) (R R9);
  (* 2069 *) MOV (Imm 598583372241692790) (R AX);
  (* 2070 *) MUL (R R11);
  (* 2071 *) ADD (R AX) (R R10);
  (* 2072 *) ADC (R DX) (R R8);
  (* 2073 *) ADC (Imm 0) (R R9);
  (* 2075 *) MOV (Imm 15750665808104639606) (R AX);
  (* 2076 *) MUL (R R12);
  (* 2077 *) ADD (R AX) (R R10);
  (* 2078 *) ADC (R DX) (R R8);
  (* 2079 *) ADC (Imm 0) (R R9);
  (* 2081 *) MOV (Imm 16423667440329193640) (R AX);
  (* 2082 *) MUL (R R13);
  (* 2083 *) ADD (R AX) (R R10);
  (* 2084 *) ADC (R DX) (R R8);
  (* 2085 *) ADC (Imm 0) (R R9);
  (* 2087 *) MOV (M SI 72) (R R14);
  (* 2088 *) MOV (Imm 17199246976927924224) (R AX);
  (* 2089 *) MUL (R R14);
  (* 2090 *) ADD (R AX) (R R10);
  (* 2091 *) ADC (R DX) (R R8);
  (* 2092 *) ADC (Imm 0) (R R9);
  (* 2093 *) ADD (M DI 112) (R R10);
  (* 2094 *) MOV (R R10) (M SI 16);
  (* 2095 *) ADC (Imm 0) (R R8);
  (* 2096 *) ADC (Imm 0) (R R9);
  (* 2098 *) XOR (R R10) (R R10);
  (* 2099 *) MOV (Imm 123032916064028) (R AX);
  (* 2100 *) MUL (R R15);
  (* 2101 *) ADD (R AX) (R R8);
  (* 2102 *) ADC (R DX) (R R9);
  (* 2103 *) ADC (Imm 0) (R R10);
  (* 2105 *) MOV (Imm 1014031881231588454) (R AX);
  (* 2106 *) MUL (R CX);
  (* 2107 *) ADD (R AX) (R R8);
  (* 2108 *) ADC (R DX) (R R9);
  (* 2109 *) ADC (Imm 0) (R R10);
  (* 2111 *) MOV (Imm 9611443585101748040) (R AX);
  (* 2112 *) MUL (R R11);
  (* 2113 *) ADD (R AX) (R R8);
  (* 2114 *) ADC (R DX) (R R9);
  (* 2115 *) ADC (Imm 0) (R R10);
  (* 2117 *) MOV (Imm 598583372241692790) (R AX);
  (* 2118 *) MUL (R R12);
  (* 2119 *) ADD (R AX) (R R8);
  (* 2120 *) ADC (R DX) (R R9);
  (* 2121 *) ADC (Imm 0) (R R10);
  (* 2123 *) MOV (Imm 15750665808104639606) (R AX);
  (* 2124 *) MUL (R R13);
  (* 2125 *) ADD (R AX) (R R8);
  (* 2126 *) ADC (R DX) (R R9);
  (* 2127 *) ADC (Imm 0) (R R10);
  (* 2129 *) MOV (Imm 16423667440329193640) (R AX);
  (* 2130 *) MUL (R R14);
  (* 2131 *) ADD (R AX) (R R8);
  (* 2132 *) ADC (R DX) (R R9);
  (* 2133 *) ADC (Imm 0) (R R10);
  (* 2135 *) MOV (M SI 80) (R R15);
  (* 2136 *) MOV (Imm 17199246976927924224) (R AX);
  (* 2137 *) MUL (R R15);
  (* 2138 *) ADD (R AX) (R R8);
  (* 2139 *) ADC (R DX) (R R9);
  (* 2140 *) ADC (Imm 0) (R R10);
  (* 2141 *) ADD (M DI 120) (R R8);
  (* 2142 *) MOV (R R8) (M SI 24);
  (* 2143 *) ADC (Imm 0) (R R9);
  (* 2144 *) ADC (Imm 0) (R R10);
  (* 2146 *) XOR (R R8) (R R8);
  (* 2147 *) MOV (Imm 123032916064028) (R AX);
  (* 2148 *) MUL (R CX);
  (* 2149 *) ADD (R AX) (R R9);
  (* 2150 *) ADC (R DX) (R R10);
  (* 2151 *) ADC (Imm 0) (R R8);
  (* 2153 *) MOV (Imm 1014031881231588454) (R AX);
  (* 2154 *) MUL (R R11);
  (* 2155 *) ADD (R AX) (R R9);
  (* 2156 *) ADC (R DX) (R R10);
  (* 2157 *) ADC (Imm 0) (R R8);
  (* 2159 *) MOV (Imm 9611443585101748040) (R AX);
  (* 2160 *) MUL (R R12);
  (* 2161 *) ADD (R AX) (R R9);
  (* 2162 *) ADC (R DX) (R R10);
  (* 2163 *) ADC (Imm 0) (R R8);
  (* 2165 *) MOV (Imm 598583372241692790) (R AX);
  (* 2166 *) MUL (R R13);
  (* 2167 *) ADD (R AX) (R R9);
  (* 2168 *) ADC (R DX) (R R10);
  (* 2169 *) ADC (Imm 0) (R R8);
  (* 2171 *) MOV (Imm 15750665808104639606) (R AX);
  (* 2172 *) MUL (R R14);
  (* 2173 *) ADD (R AX) (R R9);
  (* 2174 *) ADC (R DX) (R R10);
  (* 2175 *) ADC (Imm 0) (R R8);
  (* 2177 *) MOV (Imm 16423667440329193640) (R AX);
  (* 2178 *) MUL (R R15);
  (* 2179 *) ADD (R AX) (R R9);
  (* 2180 *) ADC (R DX) (R R10);
  (* 2181 *) ADC (Imm 0) (R R8);
  (* 2183 *) MOV (M SI 88) (R CX);
  (* 2184 *) MOV (Imm 17199246976927924224) (R AX);
  (* 2185 *) MUL (R CX);
  (* 2186 *) ADD (R AX) (R R9);
  (* 2187 *) ADC (R DX) (R R10);
  (* 2188 *) ADC (Imm 0) (R R8);
  (* 2189 *) ADD (M DI 128) (R R9);
  (* 2190 *) MOV (R R9) (M SI 32);
  (* 2191 *) ADC (Imm 0) (R R10);
  (* 2192 *) ADC (Imm 0) (R R8);
  (* 2194 *) XOR (R R9) (R R9);
  (* 2195 *) MOV (Imm 123032916064028) (R AX);
  (* 2196 *) MUL (R R11);
  (* 2197 *) ADD (R AX) (R R10);
  (* 2198 *) ADC (R DX) (R R8);
  (* 2199 *) ADC (Imm 0) (R R9);
  (* 2201 *) MOV (Imm 1014031881231588454) (R AX);
  (* 2202 *) MUL (R R12);
  (* 2203 *) ADD (R AX) (R R10);
  (* 2204 *) ADC (R DX) (R R8);
  (* 2205 *) ADC (Imm 0) (R R9);
  (* 2207 *) MOV (Imm 9611443585101748040) (R AX);
  (* 2208 *) MUL (R R13);
  (* 2209 *) ADD (R AX) (R R10);
  (* 2210 *) ADC (R DX) (R R8);
  (* 2211 *) ADC (Imm 0) (R R9);
  (* 2213 *) MOV (Imm 598583372241692790) (R AX);
  (* 2214 *) MUL (R R14);
  (* 2215 *) ADD (R AX) (R R10);
  (* 2216 *) ADC (R DX) (R R8);
  (* 2217 *) ADC (Imm 0) (R R9);
  (* 2219 *) MOV (Imm 15750665808104639606) (R AX);
  (* 2220 *) MUL (R R15);
  (* 2221 *) ADD (R AX) (R R10);
  (* 2222 *) ADC (R DX) (R R8);
  (* 2223 *) ADC (Imm 0) (R R9);
  (* 2225 *) MOV (Imm 16423667440329193640) (R AX);
  (* 2226 *) MUL (R CX);
  (* 2227 *) ADD (R AX) (R R10);
  (* 2228 *) ADC (R DX) (R R8);
  (* 2229 *) ADC (Imm 0) (R R9);
  (* 2230 *) ADD (M DI 136) (R R10);
  (* 2231 *) MOV (R R10) (M SI 40);
  (* 2232 *) ADC (Imm 0) (R R8);
  (* 2233 *) ADC (Imm 0) (R R9);
  (* 2235 *) XOR (R R10) (R R10);
  (* 2236 *) MOV (Imm 123032916064028) (R AX);
  (* 2237 *) MUL (R R12);
  (* 2238 *) ADD (R AX) (R R8);
  (* 2239 *) ADC (R DX) (R R9);
  (* 2240 *) ADC (Imm 0) (R R10);
  (* 2242 *) MOV (Imm 1014031881231588454) (R AX);
  (* 2243 *) MUL (R R13);
  (* 2244 *) ADD (R AX) (R R8);
  (* 2245 *) ADC (R DX) (R R9);
  (* 2246 *) ADC (Imm 0) (R R10);
  (* 2248 *) MOV (Imm 9611443585101748040) (R AX);
  (* 2249 *) MUL (R R14);
  (* 2250 *) ADD (R AX) (R R8);
  (* 2251 *) ADC (R DX) (R R9);
  (* 2252 *) ADC (Imm 0) (R R10);
  (* 2254 *) MOV (Imm 598583372241692790) (R AX);
  (* 2255 *) MUL (R R15);
  (* 2256 *) ADD (R AX) (R R8);
  (* 2257 *) ADC (R DX) (R R9);
  (* 2258 *) ADC (Imm 0) (R R10);
  (* 2260 *) MOV (Imm 15750665808104639606) (R AX);
  (* 2261 *) MUL (R CX);
  (* 2262 *) ADD (R AX) (R R8);
  (* 2263 *) ADC (R DX) (R R9);
  (* 2264 *) ADC (Imm 0) (R R10);
  (* 2265 *) ADD (M DI 144) (R R8);
  (* 2266 *) MOV (R R8) (M SI 48);
  (* 2267 *) ADC (Imm 0) (R R9);
  (* 2268 *) ADC (Imm 0) (R R10);
  (* 2270 *) XOR (R R8) (R R8);
  (* 2271 *) MOV (Imm 123032916064028) (R AX);
  (* 2272 *) MUL (R R13);
  (* 2273 *) ADD (R AX) (R R9);
  (* 2274 *) ADC (R DX) (R R10);
  (* 2275 *) ADC (Imm 0) (R R8);
  (* 2277 *) MOV (Imm 1014031881231588454) (R AX);
  (* 2278 *) MUL (R R14);
  (* 2279 *) ADD (R AX) (R R9);
  (* 2280 *) ADC (R DX) (R R10);
  (* 2281 *) ADC (Imm 0) (R R8);
  (* 2283 *) MOV (Imm 9611443585101748040) (R AX);
  (* 2284 *) MUL (R R15);
  (* 2285 *) ADD (R AX) (R R9);
  (* 2286 *) ADC (R DX) (R R10);
  (* 2287 *) ADC (Imm 0) (R R8);
  (* 2289 *) MOV (Imm 598583372241692790) (R AX);
  (* 2290 *) MUL (R CX);
  (* 2291 *) ADD (R AX) (R R9);
  (* 2292 *) ADC (R DX) (R R10);
  (* 2293 *) ADC (Imm 0) (R R8);
  (* 2294 *) ADD (M DI 152) (R R9);
  (* 2295 *) MOV (R R9) (M SI 56);
  (* 2296 *) ADC (Imm 0) (R R10);
  (* 2297 *) ADC (Imm 0) (R R8);
  (* 2299 *) XOR (R R9) (R R9);
  (* 2300 *) MOV (Imm 123032916064028) (R AX);
  (* 2301 *) MUL (R R14);
  (* 2302 *) ADD (R AX) (R R10);
  (* 2303 *) ADC (R DX) (R R8);
  (* 2304 *) ADC (Imm 0) (R R9);
  (* 2306 *) MOV (Imm 1014031881231588454) (R AX);
  (* 2307 *) MUL (R R15);
  (* 2308 *) ADD (R AX) (R R10);
  (* 2309 *) ADC (R DX) (R R8);
  (* 2310 *) ADC (Imm 0) (R R9);
  (* 2312 *) MOV (Imm 9611443585101748040) (R AX);
  (* 2313 *) MUL (R CX);
  (* 2314 *) ADD (R AX) (R R10);
  (* 2315 *) ADC (R DX) (R R8);
  (* 2316 *) ADC (Imm 0) (R R9);
  (* 2317 *) ADD (M DI 160) (R R10);
  (* 2318 *) MOV (R R10) (M SI 64);
  (* 2319 *) ADC (Imm 0) (R R8);
  (* 2320 *) ADC (Imm 0) (R R9);
  (* 2322 *) XOR (R R10) (R R10);
  (* 2323 *) MOV (Imm 123032916064028) (R AX);
  (* 2324 *) MUL (R R15);
  (* 2325 *) ADD (R AX) (R R8);
  (* 2326 *) ADC (R DX) (R R9);
  (* 2327 *) ADC (Imm 0) (R R10);
  (* 2329 *) MOV (Imm 1014031881231588454) (R AX);
  (* 2330 *) MUL (R CX);
  (* 2331 *) ADD (R AX) (R R8);
  (* 2332 *) ADC (R DX) (R R9);
  (* 2333 *) ADC (Imm 0) (R R10);
  (* 2334 *) ADD (M DI 168) (R R8);
  (* 2335 *) MOV (R R8) (M SI 72);
  (* 2336 *) ADC (Imm 0) (R R9);
  (* 2337 *) ADC (Imm 0) (R R10);
  (* 2339 *) MOV (Imm 123032916064028) (R AX);
  (* 2340 *) MUL (R CX);
  (* 2341 *) ADD (R AX) (R R9);
  (* 2342 *) ADC (R DX) (R R10);
  (* 2343 *) ADD (M DI 176) (R R9);
  (* 2344 *) MOV (R R9) (M SI 80);
  (* 2345 *) ADC (Imm 0) (R R10);
  (* 2346 *) ADD (M DI 184) (R R10);
  (* 2347 *) MOV (R R10) (M SI 88) ].

(* adlP751, arith_amd64.s from line 2364, frame of 0 bytes *)
Definition adlP751Asm : list instr := [
  (* 2366 *) MOV (A 0) (R DX);
  (* 2367 *) MOV (A 8) (R DI);
  (* 2368 *) MOV (A 16) (R SI);
  (* 2370 *) MOV (M DI 0) (R R8);
  (* 2371 *) MOV (M DI 8) (R R9);
  (* 2372 *) MOV (M DI 16) (R R10);
  (* 2373 *) MOV (M DI 24) (R R11);
  (* 2374 *) MOV (M DI 32) (R R12);
  (* 2375 *) MOV (M DI 40) (R R13);
  (* 2376 *) MOV (M DI 48) (R R14);
  (* 2377 *) MOV (M DI 56) (R R15);
  (* 2378 *) MOV (M DI 64) (R AX);
  (* 2379 *) MOV (M DI 72) (R BX);
  (* 2380 *) MOV (M DI 80) (R CX);
  (* 2382 *) ADD (M SI 0) (R R8);
  (* 2383 *) ADC (M SI 8) (R R9);
  (* 2384 *) ADC (M SI 16) (R R10);
  (* 2385 *) ADC (M SI 24) (R R11);
  (* 2386 *) ADC (M SI 32) (R R12);
  (* 2387 *) ADC (M SI 40) (R R13);
  (* 2388 *) ADC (M SI 48) (R R14);
  (* 2389 *) ADC (M SI 56) (R R15);
  (* 2390 *) ADC (M SI 64) (R AX);
  (* 2391 *) ADC (M SI 72) (R BX);
  (* 2392 *) ADC (M SI 80) (R CX);
  (* 2394 *) MOV (R R8) (M DX 0);
  (* 2395 *) MOV (R R9) (M DX 8);
  (* 2396 *) MOV (R R10) (M DX 16);
  (* 2397 *) MOV (R R11) (M DX 24);
  (* 2398 *) MOV (R R12) (M DX 32);
  (* 2399 *) MOV (R R13) (M DX 40);
  (* 2400 *) MOV (R R14) (M DX 48);
  (* 2401 *) MOV (R R15) (M DX 56);
  (* 2402 *) MOV (R AX) (M DX 64);
  (* 2403 *) MOV (R BX) (M DX 72);
  (* 2404 *) MOV (R CX) (M DX 80);
  (* 2405 *) MOV (M DI 88) (R AX);
  (* 2406 *) ADC (M SI 88) (R AX);
  (* 2407 *) MOV (R AX) (M DX 88);
  (* 2409 *) MOV (M DI 96) (R R8);
  (* 2410 *) MOV (M DI 104) (R R9);
  (* 2411 *) MOV (M DI 112) (R R10);
  (* 2412 *) MOV (M DI 120) (R R11);
  (* 2413 *) MOV (M DI 128) (R R12);
  (* 2414 *) MOV (M DI 136) (R R13);
  (* 2415 *) MOV (M DI 144) (R R14);
  (* 2416 *) MOV (M DI 152) (R R15);
  (* 2417 *) MOV (M DI 160) (R AX);
  (* 2418 *) MOV (M DI 168) (R BX);
  (* 2419 *) MOV (M DI 176) (R CX);
  (* 2420 *) MOV (M DI 184) (R DI);
  (* 2422 *) ADC (M SI 96) (R R8);
  (* 2423 *) ADC (M SI 104) (R R9);
  (* 2424 *) ADC (M SI 112) (R R10);
  (* 2425 *) ADC (M SI 120) (R R11);
  (* 2426 *) ADC (M SI 128) (R R12);
  (* 2427 *) ADC (M SI 136) (R R13);
  (* 2428 *) ADC (M SI 144) (R R14);
  (* 2429 *) ADC (M SI 152) (R R15);
  (* 2430 *) ADC (M SI 160) (R AX);
  (* 2431 *) ADC (M SI 168) (R BX);
  (* 2432 *) ADC (M SI 176) (R CX);
  (* 2433 *) ADC (M SI 184) (R DI);
  (* 2435 *) MOV (R R8) (M DX 96);
  (* 2436 *) MOV (R R9) (M DX 104);
  (* 2437 *) MOV (R R10) (M DX 112);
  (* 2438 *) MOV (R R11) (M DX 120);
  (* 2439 *) MOV (R R12) (M DX 128);
  (* 2440 *) MOV (R R13) (M DX 136);
  (* 2441 *) MOV (R R14) (M DX 144);
  (* 2442 *) MOV (R R15) (M DX 152);
  (* 2443 *) MOV (R AX) (M DX 160);
  (* 2444 *) MOV (R BX) (M DX 168);
  (* 2445 *) MOV (R CX) (M DX 176);
  (* 2446 *) MOV (R DI) (M DX 184) ].

(* sulP751, arith_amd64.s from line 2451, frame of 0 bytes *)
Definition sulP751Asm : list instr := [
  (* 2453 *) MOV (A 0) (R DX);
  (* 2454 *) MOV (A 8) (R DI);
  (* 2455 *) MOV (A 16) (R SI);
  (* 2457 *) MOV (M DI 0) (R R8);
  (* 2458 *) MOV (M DI 8) (R R9);
  (* 2459 *) MOV (M DI 16) (R R10);
  (* 2460 *) MOV (M DI 24) (R R11);
  (* 2461 *) MOV (M DI 32) (R R12);
  (* 2462 *) MOV (M DI 40) (R R13);
  (* 2463 *) MOV (M DI 48) (R R14);
  (* 2464 *) MOV (M DI 56) (R R15);
  (* 2465 *) MOV (M DI 64) (R AX);
  (* 2466 *) MOV (M DI 72) (R BX);
  (* 2467 *) MOV (M DI 80) (R CX);
  (* 2469 *) SUB (M SI 0) (R R8);
  (* 2470 *) SBB (M SI 8) (R R9);
  (* 2471 *) SBB (M SI 16) (R R10);
  (* 2472 *) SBB (M SI 24) (R R11);
  (* 2473 *) SBB (M SI 32) (R R12);
  (* 2474 *) SBB (M SI 40) (R R13);
  (* 2475 *) SBB (M SI 48) (R R14);
  (* 2476 *) SBB (M SI 56) (R R15);
  (* 2477 *) SBB (M SI 64) (R AX);
  (* 2478 *) SBB (M SI 72) (R BX);
  (* 2479 *) SBB (M SI 80) (R CX);
  (* 2481 *) MOV (R R8) (M DX 0);
  (* 2482 *) MOV (R R9) (M DX 8);
  (* 2483 *) MOV (R R10) (M DX 16);
  (* 2484 *) MOV (R R11) (M DX 24);
  (* 2485 *) MOV (R R12) (M DX 32);
  (* 2486 *) MOV (R R13) (M DX 40);
  (* 2487 *) MOV (R R14) (M DX 48);
  (* 2488 *) MOV (R R15) (M DX 56);
  (* 2489 *) MOV (R AX) (M DX 64);
  (* 2490 *) MOV (R BX) (M DX 72);
  (* 2491 *) MOV (R CX) (M DX 80);
  (* 2492 *) MOV (M DI 88) (R AX);
  (* 2493 *) SBB (M SI 88) (R AX);
  (* 2494 *) MOV (R AX) (M DX 88);
  (* 2496 *) MOV (M DI 96) (R R8);
  (* 2497 *) MOV (M DI 104) (R R9);
  (* 2498 *) MOV (M DI 112) (R R10);
  (* 2499 *) MOV (M DI 120) (R R11);
  (* 2500 *) MOV (M DI 128) (R R12);
  (* 2501 *) MOV (M DI 136) (R R13);
  (* 2502 *) MOV (M DI 144) (R R14);
  (* 2503 *) MOV (M DI 152) (R R15);
  (* 2504 *) MOV (M DI 160) (R AX);
  (* 2505 *) MOV (M DI 168) (R BX);
  (* 2506 *) MOV (M DI 176) (R CX);
  (* 2507 *) MOV (M DI 184) (R DI);
  (* 2509 *) SBB (M SI 96) (R R8);
  (* 2510 *) SBB (M SI 104) (R R9);
  (* 2511 *) SBB (M SI 112) (R R10);
  (* 2512 *) SBB (M SI 120) (R R11);
  (* 2513 *) SBB (M SI 128) (R R12);
  (* 2514 *) SBB (M SI 136) (R R13);
  (* 2515 *) SBB (M SI 144) (R R14);
  (* 2516 *) SBB (M SI 152) (R R15);
  (* 2517 *) SBB (M SI 160) (R AX);
  (* 2518 *) SBB (M SI 168) (R BX);
  (* 2519 *) SBB (M SI 176) (R CX);
  (* 2520 *) SBB (M SI 184) (R DI);
  (* 2522 *) MOV (R R8) (M DX 96);
  (* 2523 *) MOV (R R9) (M DX 104);
  (* 2524 *) MOV (R R10) (M DX 112);
  (* 2525 *) MOV (R R11) (M DX 120);
  (* 2526 *) MOV (R R12) (M DX 128);
  (* 2527 *) MOV (R R13) (M DX 136);
  (* 2528 *) MOV (R R14) (M DX 144);
  (* 2529 *) MOV (R R15) (M DX 152);
  (* 2530 *) MOV (R AX) (M DX 160);
  (* 2531 *) MOV (R BX) (M DX 168);
  (* 2532 *) MOV (R CX) (M DX 176);
  (* 2533 *) MOV (R DI) (M DX 184);
  (* 2536 *) MOV (Imm 0) (R AX);
  (* 2537 *) SBB (Imm 0) (R AX);
  (* 2540 *) MOV (Imm 18446744073709551615) (R R8);
  (* 2542 *) MOV (Imm 17199246976927924223) (R R9);
  (* 2543 *) MOV (Imm 16423667440329193640) (R R10);
  (* 2544 *) MOV (Imm 15750665808104639606) (R R11);
  (* 2545 *) MOV (Imm 598583372241692790) (R R12);
  (* 2546 *) MOV (Imm 9611443585101748040) (R R13);
  (* 2547 *) MOV (Imm 1014031881231588454) (R R14);
  (* 2548 *) MOV (Imm 123032916064028) (R R15);
  (* 2550 *) AND (R AX) (R R8);
  (* 2551 *) AND (R AX) (R R9);
  (* 2552 *) AND (R AX) (R R10);
  (* 2553 *) AND (R AX) (R R11);
  (* 2554 *) AND (R AX) (R R12);
  (* 2555 *) AND (R AX) (R R13);
  (* 2556 *) AND (R AX) (R R14);
  (* 2557 *) AND (R AX) (R R15);
  (* 2559 *) ADD (R R8) (M DX 96);
  (* 2560 *) ADC (R R8) (M DX 104);
  (* 2561 *) ADC (R R8) (M DX 112);
  (* 2562 *) ADC (R R8) (M DX 120);
  (* 2563 *) ADC (R R8) (M DX 128);
  (* 2564 *) ADC (R R9) (M DX 136);
  (* 2565 *) ADC (R R10) (M DX 144);
  (* 2566 *) ADC (R R11) (M DX 152);
  (* 2567 *) ADC (R R12) (M DX 160);
  (* 2568 *) ADC (R R13) (M DX 168);
  (* 2569 *) ADC (R R14) (M DX 176);
  (* 2570 *) ADC (R R15) (M DX 184) ].
